(** ARC dates: what is accepted and what it is turned into. *)
From Verif Require Export Dates.
From Coq Require Import String List Lia NArith ZArith Zify ZifyN.
Open Scope list_scope.

(** ** Specification *)
Definition digits (n : nat) (s : bytes) : Prop := List.length s = n /\ forall c, In c s -> (48 <= c <= 57)%N.
(** a day: two digits, or a space and a digit *)
Definition day_text (s : bytes) : Prop := digits 2 s \/ exists c, s = [32%N; c] /\ (48 < c <= 57)%N.
(** year, month, day of the Gregorian calendar *)
Definition leap_year (y : N) : Prop := (y mod 4 = 0 /\ (y mod 100 <> 0 \/ y mod 400 = 0))%N.
Definition last_day (y m last : N) : Prop :=
  (In m [1; 3; 5; 7; 8; 10; 12] /\ last = 31)%N \/ (In m [4; 6; 9; 11] /\ last = 30)%N \/
  (m = 2 /\ leap_year y /\ last = 29)%N \/ (m = 2 /\ ~ leap_year y /\ last = 28)%N.
Definition calendar (y m d : N) : Prop := (1 <= y)%N /\ exists last, last_day y m last /\ (1 <= d <= last)%N.
Definition clock_time (h mi s : N) : Prop := (h <= 23 /\ mi <= 59 /\ s <= 59)%N.
(** YYYY-MM-DDThh:mm:ssZ *)
Definition warc_date (Y M D h mi s : bytes) : bytes :=
  Y ++ B "-" ++ M ++ B "-" ++ D ++ B "T" ++ h ++ B ":" ++ mi ++ B ":" ++ s ++ B "Z".

(** ** Digits *)
Ltac Zify.zify_post_hook ::= Z.to_euclidean_division_equations.
Lemma digit_form c : (48 <= c <= 57)%N -> exists x, c = (48 + x)%N /\ (x <= 9)%N.
Proof. intro H. exists (c - 48)%N. lia. Qed.
Lemma digits2 s : digits 2 s -> exists a b, s = [a; b] /\ (48 <= a <= 57)%N /\ (48 <= b <= 57)%N.
Proof.
  intros [Hl Hd]. destruct s as [|a [|b [|c s]]]; try discriminate. exists a, b. split; [reflexivity|]. split; apply Hd; cbn; auto.
Qed.
Lemma digits4 s : digits 4 s -> exists a b c d, s = [a; b; c; d] /\ (48 <= a <= 57)%N /\ (48 <= b <= 57)%N /\ (48 <= c <= 57)%N /\ (48 <= d <= 57)%N.
Proof.
  intros [Hl Hd]. destruct s as [|a [|b [|c [|d [|e s]]]]]; try discriminate. exists a, b, c, d.
  split; [reflexivity|]. repeat split; apply Hd; cbn; auto.
Qed.
Lemma is_digit_iff c : (48 <= c <= 57)%N -> is_digit c = true.
Proof. unfold is_digit. intro H. apply andb_true_iff. split; apply N.leb_le; lia. Qed.
Lemma number2 a b : (48 <= a <= 57)%N -> (48 <= b <= 57)%N -> number [a; b] = (10 * (a - 48) + (b - 48))%N.
Proof. intros Ha Hb. unfold number. cbn [fold_left]. rewrite !is_digit_iff by assumption. lia. Qed.
Lemma number4 a b c d : (48 <= a <= 57)%N -> (48 <= b <= 57)%N -> (48 <= c <= 57)%N -> (48 <= d <= 57)%N ->
  number [a; b; c; d] = (1000 * (a - 48) + 100 * (b - 48) + 10 * (c - 48) + (d - 48))%N.
Proof. intros Ha Hb Hc Hd. unfold number. cbn [fold_left]. rewrite !is_digit_iff by assumption. lia. Qed.
Lemma pad2_number s : digits 2 s -> pad2 (number s) = s.
Proof.
  intro H. destruct (digits2 s H) as (a & b & -> & Ha & Hb). rewrite number2 by assumption. unfold pad2, dig.
  destruct (digit_form a Ha) as (x & -> & Hx). destruct (digit_form b Hb) as (y & -> & Hy).
  replace (10 * (48 + x - 48) + (48 + y - 48))%N with (10 * x + y)%N by lia.
  f_equal; [lia|]. f_equal. lia.
Qed.
Lemma pad4_number s : digits 4 s -> pad4 (number s) = s.
Proof.
  intro H. destruct (digits4 s H) as (a & b & c & d & -> & Ha & Hb & Hc & Hd). rewrite number4 by assumption. unfold pad4, pad2, dig. cbn [app].
  destruct (digit_form a Ha) as (x & -> & Hx). destruct (digit_form b Hb) as (y & -> & Hy).
  destruct (digit_form c Hc) as (z & -> & Hz). destruct (digit_form d Hd) as (w & -> & Hw).
  replace (1000 * (48 + x - 48) + 100 * (48 + y - 48) + 10 * (48 + z - 48) + (48 + w - 48))%N with (1000 * x + 100 * y + 10 * z + w)%N by lia.
  f_equal; [lia|]. f_equal; [lia|]. f_equal; [lia|]. f_equal. lia.
Qed.
Lemma dig_not_dot n : N.eqb (dig n) 46 = false.
Proof. apply N.eqb_neq. unfold dig. lia. Qed.
Lemma before_dot_app s t : (forall c, In c s -> N.eqb c 46 = false) -> before_dot (s ++ t) = s ++ before_dot t.
Proof.
  induction s as [|c s IH]; intro H; [reflexivity|]. cbn [app before_dot]. rewrite (H c (or_introl eq_refl)). rewrite IH; [reflexivity|].
  intros x Hx. apply H. right. exact Hx.
Qed.
(** microseconds never show *)
Theorem warc_datetime_str_eq d : warc_datetime_str d =
  warc_date (pad4 (dt_year d)) (pad2 (dt_month d)) (pad2 (dt_day d)) (pad2 (dt_hour d)) (pad2 (dt_min d)) (pad2 (dt_sec d)).
Proof.
  unfold warc_datetime_str, isoformat, warc_date.
  assert (P2 : forall n c, In c (pad2 n) -> N.eqb c 46 = false).
  { intros n c [<-|[<-|[]]]; apply dig_not_dot. }
  assert (P4 : forall n c, In c (pad4 n) -> N.eqb c 46 = false).
  { intros n c H. apply in_app_or in H as [H|H]; apply (P2 _ _ H). }
  rewrite !before_dot_app; try apply P2; try apply P4; try (intros c [<-|[]]; reflexivity).
  match goal with |- context [before_dot ?x] => replace (before_dot x) with (@nil N) by (destruct (N.eqb (dt_us d) 0); reflexivity) end.
  rewrite app_nil_r, <- !app_assoc. reflexivity.
Qed.

(** ** Calendar *)
Lemma leap_iff y : leap y = true <-> leap_year y.
Proof.
  unfold leap, leap_year. rewrite andb_true_iff, orb_true_iff, negb_true_iff, !N.eqb_eq, N.eqb_neq. reflexivity.
Qed.
Lemma month_days_iff y m last : (1 <= m <= 12)%N -> (last_day y m last <-> last = month_days y m).
Proof.
  intro Hm. assert (Hc : m = 1%N \/ m = 2%N \/ m = 3%N \/ m = 4%N \/ m = 5%N \/ m = 6%N \/ m = 7%N \/ m = 8%N \/ m = 9%N \/ m = 10%N \/ m = 11%N \/ m = 12%N) by lia.
  unfold last_day, month_days. pose proof (leap_iff y) as Hl.
  repeat (destruct Hc as [ -> |Hc]; [cbn [N.eqb Pos.eqb orb In]; destruct (leap y); intuition (try lia; try congruence)|]).
  subst m. cbn [N.eqb Pos.eqb orb In]. intuition (try lia; try congruence).
Qed.
Lemma last_day_month y m last : last_day y m last -> (1 <= m <= 12)%N.
Proof. unfold last_day. cbn [In]. intros [[H _]|[[H _]|[[H _]|[H _]]]]; intuition (subst; lia). Qed.
Lemma calendar_iff y m d : (y <= 9999)%N ->
  (calendar y m d <-> (N.leb 1 y && N.leb y 9999 && N.leb 1 m && N.leb m 12 && N.leb 1 d && N.leb d (month_days y m) = true)%bool).
Proof.
  intro Hy. rewrite !andb_true_iff, !N.leb_le. unfold calendar. split.
  - intros (H1 & last & Hl & Hd). pose proof (last_day_month _ _ _ Hl) as Hm. apply (month_days_iff y m last Hm) in Hl. subst last. lia.
  - intros (((((H1 & _) & H3) & H4) & H5) & H6). split; [exact H1|]. exists (month_days y m). split; [apply month_days_iff; [lia|reflexivity]|lia].
Qed.
Lemma new_datetime_iff y m d h mi s dt : (y <= 9999)%N ->
  (new_datetime y m d h mi s = Some dt <-> calendar y m d /\ clock_time h mi s /\ dt = mkdt y m d h mi s 0).
Proof.
  intro Hy. unfold new_datetime. pose proof (calendar_iff y m d Hy) as Hc.
  match goal with |- context [if ?c then _ else _] => assert (E : c = true <-> calendar y m d /\ clock_time h mi s) end.
  { rewrite Hc. unfold clock_time. rewrite !andb_true_iff, !N.leb_le. tauto. }
  match goal with |- context [if ?c then _ else _] => destruct c end.
  - destruct E as [E _]. destruct (E eq_refl) as [E1 E2]. split; [intro H; injection H as <-; auto|intros (_ & _ & ->); reflexivity].
  - split; [discriminate|]. intros (H1 & H2 & _). destruct E as [_ E]. discriminate (E (conj H1 H2)).
Qed.

(** ** Matching *)
Lemma take_alt_split alt : forall s v r, take_alt alt s = Some (v, r) -> s = v ++ r /\ List.length v = List.length alt /\ take_alt alt v = Some (v, []).
Proof.
  induction alt as [|p alt IH]; intros s v r H; cbn [take_alt] in *.
  - injection H as <- <-. repeat split; reflexivity.
  - destruct s as [|c t]; [discriminate|]. destruct (p c) eqn:Ep; [|discriminate]. destruct (take_alt alt t) as [[v' r']|] eqn:E; [|discriminate].
    injection H as <- <-. destruct (IH _ _ _ E) as (H1 & H2 & H3). subst t. split; [reflexivity|]. split; [cbn; congruence|]. rewrite Ep, H3. reflexivity.
Qed.
Definition fits (f : directive) (v : bytes) : Prop := exists alt, In alt f /\ take_alt alt v = Some (v, []) /\ List.length v = List.length alt.
Lemma match_format_split fs : forall s vs r, match_format fs s = Some (vs, r) -> s = concat vs ++ r /\ Forall2 fits fs vs.
Proof.
  induction fs as [|f fs IH]; intros s vs r H; cbn [match_format] in H.
  - injection H as <- <-. split; [reflexivity|constructor].
  - assert (G : forall alts, incl alts f -> try_alts (match_format fs) alts s = Some (vs, r) -> s = concat vs ++ r /\ Forall2 fits (f :: fs) vs).
    { induction alts as [|a alts IHa]; intros Hi E; [discriminate|]. cbn [try_alts] in E.
      assert (Hi' : incl alts f) by (intros x Hx; apply Hi; right; exact Hx).
      destruct (take_alt a s) as [[v s']|] eqn:Et; [|apply IHa; assumption].
      destruct (match_format fs s') as [[vs' r']|] eqn:Em; [|apply IHa; assumption].
      injection E as <- <-. destruct (take_alt_split _ _ _ _ Et) as (-> & Hl & Hv). destruct (IH _ _ _ Em) as [-> Hf].
      split; [cbn [concat]; rewrite <- app_assoc; reflexivity|]. constructor; [|exact Hf]. exists a. split; [apply Hi; left; reflexivity|]. split; assumption. }
    apply (G f (incl_refl f)). exact H.
Qed.
(** two-digit fields in range *)
Ltac branch := repeat match goal with
  | |- context [N.leb ?a ?b] => destruct (N.leb_spec a b)
  | |- context [N.eqb ?a ?b] => destruct (N.eqb_spec a b)
  end; cbn [andb]; try lia.
Section Two.
  Variable rest : bytes -> option (list bytes * bytes).
  Variables (a b : N) (s : bytes) (vs : list bytes) (r : bytes).
  Hypothesis Ha : (48 <= a <= 57)%N.
  Hypothesis Hb : (48 <= b <= 57)%N.
  Hypothesis Hr : rest s = Some (vs, r).
  Lemma two_m : (1 <= 10 * (a - 48) + (b - 48) <= 12)%N -> try_alts rest F_m (a :: b :: s) = Some ([a; b] :: vs, r).
  Proof. intro H. unfold F_m. cbn [try_alts take_alt]. unfold one, rng. branch; rewrite Hr; reflexivity. Qed.
  Lemma two_d : (1 <= 10 * (a - 48) + (b - 48) <= 31)%N -> try_alts rest F_d (a :: b :: s) = Some ([a; b] :: vs, r).
  Proof. intro H. unfold F_d. cbn [try_alts take_alt]. unfold any_digit, one, rng. branch; rewrite Hr; reflexivity. Qed.
  Lemma two_H : (10 * (a - 48) + (b - 48) <= 23)%N -> try_alts rest F_H (a :: b :: s) = Some ([a; b] :: vs, r).
  Proof. intro H. unfold F_H. cbn [try_alts take_alt]. unfold any_digit, one, rng. branch; rewrite Hr; reflexivity. Qed.
  Lemma two_M : (10 * (a - 48) + (b - 48) <= 59)%N -> try_alts rest F_M (a :: b :: s) = Some ([a; b] :: vs, r).
  Proof. intro H. unfold F_M. cbn [try_alts take_alt]. unfold any_digit, one, rng. branch; rewrite Hr; reflexivity. Qed.
  Lemma two_S : (10 * (a - 48) + (b - 48) <= 59)%N -> try_alts rest F_S (a :: b :: s) = Some ([a; b] :: vs, r).
  Proof. intro H. unfold F_S. cbn [try_alts take_alt]. unfold any_digit, one, rng. branch; rewrite Hr; reflexivity. Qed.
End Two.
Lemma four_Y rest y s vs r : digits 4 y -> rest s = Some (vs, r) -> try_alts rest F_Y (y ++ s) = Some (y :: vs, r).
Proof.
  intros Hy Hr. destruct (digits4 y Hy) as (a & b & c & d & -> & Ha & Hb & Hc & Hd). unfold F_Y. cbn [try_alts take_alt app]. unfold any_digit, rng.
  branch. rewrite Hr. reflexivity.
Qed.

(** ** The two formats *)
Lemma number4_small y : digits 4 y -> (number y <= 9999)%N.
Proof. intro H. destruct (digits4 y H) as (a & b & c & d & -> & Ha & Hb & Hc & Hd). rewrite number4 by assumption. lia. Qed.
Lemma calendar_bounds y m d : calendar y m d -> (1 <= m <= 12)%N /\ (1 <= d <= 31)%N.
Proof.
  intros (_ & l & Hl & Hd). split; [apply (last_day_month _ _ _ Hl)|]. unfold last_day in Hl. lia.
Qed.
Ltac two H a b Ha Hb := destruct (digits2 _ H) as (a & b & -> & Ha & Hb).
Lemma strptime14 Y M D h mi s : digits 4 Y -> digits 2 M -> digits 2 D -> digits 2 h -> digits 2 mi -> digits 2 s ->
  calendar (number Y) (number M) (number D) -> clock_time (number h) (number mi) (number s) ->
  strptime FORMAT14 (Y ++ M ++ D ++ h ++ mi ++ s) = Some (mkdt (number Y) (number M) (number D) (number h) (number mi) (number s) 0).
Proof.
  intros HY HM HD Hh Hmi Hs Hc Ht. pose proof (calendar_bounds _ _ _ Hc) as [Bm Bd]. pose proof Ht as (B1 & B2 & B3).
  assert (E : match_format FORMAT14 (Y ++ M ++ D ++ h ++ mi ++ s) = Some ([Y; M; D; h; mi; s], [])).
  { two HM a b Ha Hb. two HD c d Hc' Hd. two Hh e f He Hf. two Hmi g i Hg Hi. two Hs j k Hj Hk.
    rewrite number2 in Bm, Bd, B1, B2, B3 by assumption.
    unfold FORMAT14. cbn [match_format]. apply four_Y; [exact HY|]. cbn [app].
    apply two_m; try assumption. apply two_d; try assumption. apply two_H; try assumption. apply two_M; try assumption. apply two_S; try assumption. reflexivity. }
  unfold strptime. rewrite E. apply new_datetime_iff; [apply number4_small; exact HY|]. auto.
Qed.
Lemma strptime8 Y M D : digits 4 Y -> digits 2 M -> digits 2 D -> calendar (number Y) (number M) (number D) ->
  strptime FORMAT8 (Y ++ M ++ D) = Some (mkdt (number Y) (number M) (number D) 0 0 0 0).
Proof.
  intros HY HM HD Hc. pose proof (calendar_bounds _ _ _ Hc) as [Bm Bd].
  assert (E : match_format FORMAT8 (Y ++ M ++ D) = Some ([Y; M; D], [])).
  { two HM a b Ha Hb. two HD c d Hc' Hd. rewrite number2 in Bm, Bd by assumption.
    unfold FORMAT8. cbn [match_format]. apply four_Y; [exact HY|]. cbn [app].
    apply two_m; try assumption. apply two_d; try assumption. reflexivity. }
  unfold strptime. rewrite E. apply new_datetime_iff; [apply number4_small; exact HY|]. split; [exact Hc|]. split; [unfold clock_time; lia|reflexivity].
Qed.
(** what the directives accept *)
Lemma rng_iff a b c : rng a b c = true <-> (48 + a <= c <= 48 + b)%N.
Proof. unfold rng. rewrite andb_true_iff, !N.leb_le. reflexivity. Qed.
Lemma one_iff a c : one a c = true <-> c = (48 + a)%N.
Proof. unfold one. apply N.eqb_eq. Qed.
Ltac classes := repeat match goal with
  | H : rng _ _ _ = true |- _ => apply rng_iff in H
  | H : any_digit _ = true |- _ => apply rng_iff in H
  | H : one _ _ = true |- _ => apply one_iff in H
  | H : N.eqb _ _ = true |- _ => apply N.eqb_eq in H
  end.
Ltac peel H := cbn [take_alt] in H;
  repeat match type of H with
  | context [if ?c then _ else _] => destruct c eqn:?; [|discriminate H]; cbn [take_alt] in H
  end; classes.
Lemma digits2_of a b : (48 <= a <= 57)%N -> (48 <= b <= 57)%N -> digits 2 [a; b].
Proof. intros Ha Hb. split; [reflexivity|]. intros c [<-|[<-|[]]]; assumption. Qed.
Ltac shape := match goal with
  | H : List.length ?v = _ |- _ =>
    destruct v as [|? [|? [|? ?]]]; try discriminate H
  end.
Lemma fits_Y v : fits F_Y v -> digits 4 v.
Proof.
  intros (alt & [<-|[]] & E & Hl). destruct v as [|a [|b [|c [|d [|e v]]]]]; try discriminate Hl. peel E.
  split; [reflexivity|]. intros x [<-|[<-|[<-|[<-|[]]]]]; lia.
Qed.
Lemma fits_m v : fits F_m v -> (List.length v = 2 /\ digits 2 v) \/ List.length v = 1.
Proof. intros (alt & Hin & E & Hl). repeat (destruct Hin as [<-|Hin]; [shape; peel E; (right; reflexivity) || (left; split; [reflexivity|apply digits2_of; lia])|]). destruct Hin. Qed.
Lemma fits_d v : fits F_d v -> (List.length v = 2 /\ day_text v) \/ List.length v = 1.
Proof.
  intros (alt & Hin & E & Hl). do 4 (destruct Hin as [<-|Hin]; [shape; peel E; (right; reflexivity) || (left; split; [reflexivity|left; apply digits2_of; lia])|]).
  destruct Hin as [<-|[]]. shape. peel E. left. split; [reflexivity|]. right. subst. eexists. split; [reflexivity|]. lia.
Qed.
Lemma fits_H v : fits F_H v -> (List.length v = 2 /\ digits 2 v) \/ List.length v = 1.
Proof. intros (alt & Hin & E & Hl). repeat (destruct Hin as [<-|Hin]; [shape; peel E; (right; reflexivity) || (left; split; [reflexivity|apply digits2_of; lia])|]). destruct Hin. Qed.
Lemma fits_M v : fits F_M v -> (List.length v = 2 /\ digits 2 v) \/ List.length v = 1.
Proof. intros (alt & Hin & E & Hl). repeat (destruct Hin as [<-|Hin]; [shape; peel E; (right; reflexivity) || (left; split; [reflexivity|apply digits2_of; lia])|]). destruct Hin. Qed.
Lemma fits_S v : fits F_S v -> (List.length v = 2 /\ digits 2 v) \/ List.length v = 1.
Proof. intros (alt & Hin & E & Hl). repeat (destruct Hin as [<-|Hin]; [shape; peel E; (right; reflexivity) || (left; split; [reflexivity|apply digits2_of; lia])|]). destruct Hin. Qed.
Ltac pieces H := repeat match type of H with
  | Forall2 _ (_ :: _) _ => let x := fresh "v" in let t := fresh "vs" in let F := fresh "F" in let R := fresh "R" in
      inversion H as [|? x ? t F R]; subst; clear H; rename R into H
  | Forall2 _ [] _ => inversion H; subst; clear H
  end.
(** a successful parse *)
Lemma strptime14_inv s dt : strptime FORMAT14 s = Some dt ->
  exists Y M D h mi se, s = Y ++ M ++ D ++ h ++ mi ++ se /\
    fits F_Y Y /\ fits F_m M /\ fits F_d D /\ fits F_H h /\ fits F_M mi /\ fits F_S se /\
    calendar (number Y) (number M) (number D) /\ clock_time (number h) (number mi) (number se) /\
    dt = mkdt (number Y) (number M) (number D) (number h) (number mi) (number se) 0.
Proof.
  unfold strptime. destruct (match_format FORMAT14 s) as [[vs r]|] eqn:E; [|discriminate]. destruct (match_format_split _ _ _ _ E) as [-> H].
  unfold FORMAT14 in H. inversion H as [|? Y ? vs1 F1 R1]; subst. inversion R1 as [|? M ? vs2 F2 R2]; subst. inversion R2 as [|? D ? vs3 F3 R3]; subst.
  inversion R3 as [|? h ? vs4 F4 R4]; subst. inversion R4 as [|? mi ? vs5 F5 R5]; subst. inversion R5 as [|? se ? vs6 F6 R6]; subst. inversion R6; subst.
  destruct r; [|discriminate]. intro G. apply new_datetime_iff in G; [|apply number4_small, fits_Y, F1]. destruct G as (G1 & G2 & G3).
  exists Y, M, D, h, mi, se. cbn [concat]. rewrite !app_nil_r. repeat (split; [assumption||reflexivity|]). exact G3.
Qed.
Lemma strptime8_inv s dt : strptime FORMAT8 s = Some dt ->
  exists Y M D, s = Y ++ M ++ D /\ fits F_Y Y /\ fits F_m M /\ fits F_d D /\
    calendar (number Y) (number M) (number D) /\ dt = mkdt (number Y) (number M) (number D) 0 0 0 0.
Proof.
  unfold strptime. destruct (match_format FORMAT8 s) as [[vs r]|] eqn:E; [|discriminate]. destruct (match_format_split _ _ _ _ E) as [-> H].
  unfold FORMAT8 in H. inversion H as [|? Y ? vs1 F1 R1]; subst. inversion R1 as [|? M ? vs2 F2 R2]; subst. inversion R2 as [|? D ? vs3 F3 R3]; subst. inversion R3; subst.
  destruct r; [|discriminate]. intro G. apply new_datetime_iff in G; [|apply number4_small, fits_Y, F1]. destruct G as (G1 & G2 & G3).
  exists Y, M, D. cbn [concat]. rewrite !app_nil_r. repeat (split; [assumption||reflexivity|]). exact G3.
Qed.
Lemma strptime14_length s dt : strptime FORMAT14 s = Some dt -> 9 <= List.length s <= 14.
Proof.
  intro H. apply strptime14_inv in H as (Y & M & D & h & mi & se & -> & F1 & F2 & F3 & F4 & F5 & F6 & _).
  destruct (fits_Y _ F1) as [L1 _]. apply fits_m in F2. apply fits_d in F3. apply fits_H in F4. apply fits_M in F5. apply fits_S in F6.
  rewrite !app_length. lia.
Qed.
Lemma strptime8_length s dt : strptime FORMAT8 s = Some dt -> 6 <= List.length s <= 8.
Proof.
  intro H. apply strptime8_inv in H as (Y & M & D & -> & F1 & F2 & F3 & _).
  destruct (fits_Y _ F1) as [L1 _]. apply fits_m in F2. apply fits_d in F3. rewrite !app_length. lia.
Qed.
(** ** Dates of ARC records *)
Lemma arc_date_14 Y M D h mi s : digits 4 Y -> digits 2 M -> digits 2 D -> digits 2 h -> digits 2 mi -> digits 2 s ->
  calendar (number Y) (number M) (number D) -> clock_time (number h) (number mi) (number s) ->
  exists dt, arc_record_date (Y ++ M ++ D ++ h ++ mi ++ s) = Some dt /\ warc_datetime_str dt = warc_date Y M D h mi s.
Proof.
  intros. unfold arc_record_date. rewrite strptime14 by assumption. eexists. split; [reflexivity|].
  rewrite warc_datetime_str_eq. cbn [dt_year dt_month dt_day dt_hour dt_min dt_sec].
  rewrite !pad2_number, pad4_number by assumption. reflexivity.
Qed.
Lemma arc_date_8 Y M D : digits 4 Y -> digits 2 M -> digits 2 D -> calendar (number Y) (number M) (number D) ->
  exists dt, arc_record_date (Y ++ M ++ D) = Some dt /\ warc_datetime_str dt = warc_date Y M D (B "00") (B "00") (B "00").
Proof.
  intros HY HM HD Hc. unfold arc_record_date. destruct (strptime FORMAT14 (Y ++ M ++ D)) as [dt|] eqn:E.
  - apply strptime14_length in E. destruct HY as [L1 _], HM as [L2 _], HD as [L3 _]. rewrite !app_length in E. lia.
  - rewrite strptime8 by assumption. eexists. split; [reflexivity|]. rewrite warc_datetime_str_eq. cbn [dt_year dt_month dt_day dt_hour dt_min dt_sec].
    rewrite !pad2_number, pad4_number by assumption. reflexivity.
Qed.
Lemma arc_date_length s dt : arc_record_date s = Some dt -> 6 <= List.length s <= 14.
Proof.
  unfold arc_record_date. destruct (strptime FORMAT14 s) as [d|] eqn:E; intro H.
  - apply strptime14_length in E. lia.
  - apply strptime8_length in H. lia.
Qed.
Lemma arc_date_14_only s dt : List.length s = 14 -> arc_record_date s = Some dt ->
  exists Y M D h mi se, s = Y ++ M ++ D ++ h ++ mi ++ se /\
    digits 4 Y /\ digits 2 M /\ day_text D /\ digits 2 h /\ digits 2 mi /\ digits 2 se /\
    calendar (number Y) (number M) (number D) /\ clock_time (number h) (number mi) (number se).
Proof.
  intro Hl. unfold arc_record_date. destruct (strptime FORMAT14 s) as [d|] eqn:E; intro H.
  - apply strptime14_inv in E as (Y & M & D & h & mi & se & -> & F1 & F2 & F3 & F4 & F5 & F6 & Hc & Ht & _).
    exists Y, M, D, h, mi, se. split; [reflexivity|]. rewrite !app_length in Hl. apply fits_Y in F1.
    assert (L1 : List.length Y = 4) by apply F1. apply fits_m in F2. apply fits_d in F3. apply fits_H in F4. apply fits_M in F5. apply fits_S in F6.
    destruct F2 as [[L2 F2]|L2]; [|lia]. destruct F3 as [[L3 F3]|L3]; [|lia]. destruct F4 as [[L4 F4]|L4]; [|lia].
    destruct F5 as [[L5 F5]|L5]; [|lia]. destruct F6 as [[L6 F6]|L6]; [|lia]. repeat (split; [assumption|]). assumption.
  - apply strptime8_length in H. lia.
Qed.
Lemma arc_date_8_only s dt : List.length s = 8 -> arc_record_date s = Some dt ->
  exists Y M D, s = Y ++ M ++ D /\ digits 4 Y /\ digits 2 M /\ day_text D /\ calendar (number Y) (number M) (number D).
Proof.
  intro Hl. unfold arc_record_date. destruct (strptime FORMAT14 s) as [d|] eqn:E; intro H.
  - apply strptime14_length in E. lia.
  - apply strptime8_inv in H as (Y & M & D & -> & F1 & F2 & F3 & Hc & _). exists Y, M, D. split; [reflexivity|]. rewrite !app_length in Hl. apply fits_Y in F1.
    assert (L1 : List.length Y = 4) by apply F1. apply fits_m in F2. apply fits_d in F3.
    destruct F2 as [[L2 F2]|L2]; [|lia]. destruct F3 as [[L3 F3]|L3]; [|lia]. repeat (split; [assumption|]). assumption.
Qed.
(** the text of a date is one tidy line *)
Lemma pad_digits n c : In c (pad2 n) -> (48 <= c <= 57)%N.
Proof. intros [<-|[<-|[]]]; unfold dig; lia. Qed.
