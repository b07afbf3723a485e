(** C70: record identifiers and digests. *)
From Verif Require Import PropsA2W PropsA2WMore Ids.
From Coq Require Import String List NArith Lia Arith.
Import ListNotations.
Open Scope list_scope.

(** ** Specification *)
Definition hex_alphabet : bytes := B "0123456789abcdef".
(** [h] is the usual hexadecimal text of [s]: two digits for each byte, the high one first *)
Inductive hex_of : bytes -> bytes -> Prop :=
| HexNil : hex_of [] []
| HexCons x y cx cy s h : nth_error hex_alphabet x = Some cx -> nth_error hex_alphabet y = Some cy -> hex_of s h ->
    hex_of (N.of_nat (16 * x + y) :: s) (cx :: cy :: h).
(** the identifier made of 32 hexadecimal digits *)
Definition identifier (h : bytes) (id : bytes) : Prop :=
  exists a b c d e, h = a ++ b ++ c ++ d ++ e /\
    List.length a = 8 /\ List.length b = 4 /\ List.length c = 4 /\ List.length d = 4 /\ List.length e = 12 /\
    id = B "<urn:uuid:" ++ a ++ B "-" ++ b ++ B "-" ++ c ++ B "-" ++ d ++ B "-" ++ e ++ B ">".
Definition byte (c : N) : Prop := (c < 256)%N.

(** ** Digits *)
Definition digit (n : N) (j : nat) : N := N.modulo (N.div n (16 ^ N.of_nat j)) 16.
Lemma hex_digits_map k n : hex_digits k n = map (fun j => hex_char (digit n j)) (rev (seq 0 k)).
Proof.
  induction k as [|k IH]; [reflexivity|]. cbn [hex_digits]. rewrite seq_S, rev_app_distr. cbn [rev app map plus]. rewrite <- IH. reflexivity.
Qed.
Definition value (ds : list N) : N := fold_left (fun n c => 16 * n + c)%N ds 0%N.
Lemma value_from ds : forall n, fold_left (fun n c => 16 * n + c)%N ds n = (n * 16 ^ N.of_nat (List.length ds) + value ds)%N.
Proof.
  induction ds as [|d ds IH]; intro n; [cbn; lia|]. unfold value. cbn [fold_left List.length]. rewrite IH. rewrite (IH (16 * 0 + d)%N).
  rewrite Nat2N.inj_succ, N.pow_succ_r'. lia.
Qed.
Lemma value_cons d ds : value (d :: ds) = (d * 16 ^ N.of_nat (List.length ds) + value ds)%N.
Proof. unfold value at 1. cbn [fold_left]. rewrite value_from. lia. Qed.
Lemma value_lt ds : Forall (fun d => d < 16)%N ds -> (value ds < 16 ^ N.of_nat (List.length ds))%N.
Proof.
  induction 1 as [|d ds Hd _ IH]; [reflexivity|]. rewrite value_cons. cbn [List.length]. rewrite Nat2N.inj_succ, N.pow_succ_r'.
  set (p := (16 ^ N.of_nat (List.length ds))%N) in *. nia.
Qed.
Lemma hex_digits_high k : forall n m, hex_digits k (m * 16 ^ N.of_nat k + n) = hex_digits k n.
Proof.
  induction k as [|k IH]; intros n m; [reflexivity|]. cbn [hex_digits]. rewrite Nat2N.inj_succ, N.pow_succ_r'.
  set (p := (16 ^ N.of_nat k)%N). assert (Hp : p <> 0%N) by (apply N.pow_nonzero; discriminate).
  replace (m * (16 * p) + n)%N with (n + (16 * m) * p)%N by lia. rewrite N.div_add by exact Hp.
  f_equal.
  - f_equal. rewrite (N.mul_comm 16 m). apply N.mod_add. discriminate.
  - rewrite N.add_comm. apply IH.
Qed.
Lemma hex_digits_value ds : Forall (fun d => d < 16)%N ds -> hex_digits (List.length ds) (value ds) = map hex_char ds.
Proof.
  induction 1 as [|d ds Hd Hds IH]; [reflexivity|]. rewrite value_cons. cbn [List.length hex_digits map].
  pose proof (value_lt ds Hds) as Hv. set (p := (16 ^ N.of_nat (List.length ds))%N) in *. assert (Hp : p <> 0%N) by (apply N.pow_nonzero; discriminate).
  f_equal.
  - f_equal. rewrite N.add_comm, N.div_add by exact Hp. rewrite N.div_small by exact Hv. rewrite N.add_0_l. apply N.mod_small. exact Hd.
  - rewrite <- IH. apply hex_digits_high.
Qed.
Lemma hex_val_char d : (d < 16)%N -> hex_val (hex_char d) = d.
Proof. intro H. unfold hex_char. destruct (N.ltb_spec d 10); unfold hex_val; match goal with |- (if N.ltb ?x 58 then _ else _) = _ => destruct (N.ltb_spec x 58); lia end. Qed.
Lemma hex_char_inj a b : (a < 16)%N -> (b < 16)%N -> hex_char a = hex_char b -> a = b.
Proof. intros Ha Hb H. rewrite <- (hex_val_char a Ha), H. apply hex_val_char. exact Hb. Qed.
Lemma hex_int_chars ds : Forall (fun d => d < 16)%N ds -> hex_int (map hex_char ds) = value ds.
Proof.
  unfold hex_int, value. generalize 0%N. induction ds as [|d ds IH]; intros n H; [reflexivity|]. inversion H as [|? ? Hd Hds]; subst. cbn [map fold_left].
  rewrite hex_val_char by exact Hd. apply IH. exact Hds.
Qed.
(** the digit values of bytes *)
Definition nibbles (s : bytes) : list N := concat (map (fun c => [N.div c 16; N.modulo c 16]) s).
Lemma hexdigest_nibbles s : hexdigest s = map hex_char (nibbles s).
Proof. unfold hexdigest, nibbles. induction s as [|c s IH]; [reflexivity|]. cbn [map concat app]. rewrite IH. reflexivity. Qed.
Lemma nibbles_lt s : Forall byte s -> Forall (fun d => d < 16)%N (nibbles s).
Proof.
  unfold nibbles, byte. induction 1 as [|c s Hc _ IH]; [constructor|]. cbn [map concat app]. constructor.
  - apply N.div_lt_upper_bound; lia.
  - constructor; [apply N.mod_lt; discriminate|exact IH].
Qed.
Lemma nibbles_length s : List.length (nibbles s) = 2 * List.length s.
Proof. unfold nibbles. induction s as [|c s IH]; [reflexivity|]. cbn [map concat app List.length]. lia. Qed.
Lemma nibbles_inj : forall s t, nibbles s = nibbles t -> s = t.
Proof.
  unfold nibbles. induction s as [|c s IH]; intros [|d t] H; try reflexivity; try discriminate. cbn [map concat app] in H. injection H as H1 H2 H3.
  f_equal; [|apply IH; exact H3]. rewrite (N.div_mod c 16), (N.div_mod d 16) by discriminate. rewrite H1, H2. reflexivity.
Qed.
Lemma nibbles_firstn k s : nibbles (firstn k s) = firstn (2 * k) (nibbles s).
Proof.
  revert s. induction k as [|k IH]; intros s; [reflexivity|]. destruct s as [|c s]; [rewrite !firstn_nil; reflexivity|].
  replace (2 * S k) with (S (S (2 * k))) by lia. change (nibbles (c :: s)) with (N.div c 16 :: N.modulo c 16 :: nibbles s).
  cbn [firstn]. rewrite <- IH. reflexivity.
Qed.
Lemma bytes_int_value s : bytes_int s = value (nibbles s).
Proof.
  unfold bytes_int, value, nibbles. generalize 0%N. induction s as [|c s IH]; intro n; [reflexivity|]. cbn [map concat app fold_left]. rewrite IH. f_equal.
  pose proof (N.div_mod c 16). lia.
Qed.
Lemma hex_char_alphabet d : (d < 16)%N -> nth_error hex_alphabet (N.to_nat d) = Some (hex_char d).
Proof.
  intro H. assert (Hd : In d (map N.of_nat (seq 0 16))).
  { apply in_map_iff. exists (N.to_nat d). split; [apply N2Nat.id|]. apply in_seq. lia. }
  cbn in Hd. repeat (destruct Hd as [<-|Hd]; [reflexivity|]). destruct Hd.
Qed.
Lemma hex_of_hexdigest s : Forall byte s -> hex_of s (hexdigest s).
Proof.
  induction 1 as [|c s Hc _ IH]; [constructor|]. change (hexdigest (c :: s)) with (hex_char (N.div c 16) :: hex_char (N.modulo c 16) :: hexdigest s).
  assert (Ec : c = N.of_nat (16 * N.to_nat (N.div c 16) + N.to_nat (N.modulo c 16))) by (rewrite Nat2N.inj_add, Nat2N.inj_mul, !N2Nat.id; apply N.div_mod; discriminate).
  rewrite Ec at 1. constructor; [apply hex_char_alphabet|apply hex_char_alphabet|exact IH].
  - unfold byte in Hc. apply N.div_lt_upper_bound; lia.
  - apply N.mod_lt. discriminate.
Qed.
Lemma hex_of_eq s h : hex_of s h -> h = hexdigest s /\ Forall byte s.
Proof.
  induction 1 as [|x y cx cy s h Hx Hy _ [IH1 IH2]]; [split; [reflexivity|constructor]|].
  assert (Lx : x < 16) by (apply (nth_error_Some hex_alphabet x); rewrite Hx; discriminate).
  assert (Ly : y < 16) by (apply (nth_error_Some hex_alphabet y); rewrite Hy; discriminate).
  assert (E1 : (N.of_nat (16 * x + y) / 16 = N.of_nat x)%N) by (symmetry; apply (N.div_unique _ _ _ (N.of_nat y)); lia).
  assert (E2 : (N.of_nat (16 * x + y) mod 16 = N.of_nat y)%N) by (symmetry; apply (N.mod_unique _ _ (N.of_nat x)); lia).
  split; [|constructor; [unfold byte; lia|exact IH2]].
  change (hexdigest (N.of_nat (16 * x + y) :: s)) with (hex_char (N.div (N.of_nat (16 * x + y)) 16) :: hex_char (N.modulo (N.of_nat (16 * x + y)) 16) :: hexdigest s).
  rewrite E1, E2, <- IH1. pose proof (hex_char_alphabet (N.of_nat x)) as Ax. pose proof (hex_char_alphabet (N.of_nat y)) as Ay.
  rewrite Nat2N.id in Ax, Ay. rewrite Ax in Hx by lia. rewrite Ay in Hy by lia. congruence.
Qed.

(** ** The text of an identifier *)
Lemma skip_twice (a b : nat) : forall h : bytes, skipn a (skipn b h) = skipn (a + b) h.
Proof.
  induction b as [|b IH]; intro h; [rewrite Nat.add_0_r; reflexivity|]. rewrite Nat.add_succ_r. destruct h as [|x h]; [rewrite !skipn_nil; reflexivity|].
  cbn [skipn]. apply IH.
Qed.
Lemma identifier_of h : List.length h = 32 -> identifier h (B "<urn:uuid:" ++ (firstn 8 h ++ DASH ++ firstn 4 (skipn 8 h) ++ DASH ++ firstn 4 (skipn 12 h) ++ DASH ++ firstn 4 (skipn 16 h) ++ DASH ++ skipn 20 h) ++ B ">").
Proof.
  intro H. exists (firstn 8 h), (firstn 4 (skipn 8 h)), (firstn 4 (skipn 12 h)), (firstn 4 (skipn 16 h)), (skipn 20 h). split; [|repeat split].
  - change (skipn 20 h) with (skipn (4 + 16) h). rewrite <- (skip_twice 4 16 h), firstn_skipn.
    change (skipn 16 h) with (skipn (4 + 12) h). rewrite <- (skip_twice 4 12 h), firstn_skipn.
    change (skipn 12 h) with (skipn (4 + 8) h). rewrite <- (skip_twice 4 8 h), firstn_skipn. rewrite firstn_skipn. reflexivity.
  - rewrite firstn_length, H. reflexivity.
  - rewrite firstn_length, skipn_length, H. reflexivity.
  - rewrite firstn_length, skipn_length, H. reflexivity.
  - rewrite firstn_length, skipn_length, H. reflexivity.
  - rewrite skipn_length, H. reflexivity.
  - unfold DASH. rewrite <- !app_assoc. reflexivity.
Qed.
Lemma identifier_inj h1 h2 id : identifier h1 id -> identifier h2 id -> h1 = h2.
Proof.
  intros (a & b & c & d & e & -> & La & Lb & Lc & Ld & Le & -> ) (a' & b' & c' & d' & e' & -> & La' & Lb' & Lc' & Ld' & Le' & H).
  apply app_inv_head in H.
  assert (J : forall (x y s t : bytes), List.length x = List.length y -> x ++ s = y ++ t -> x = y /\ s = t).
  { induction x as [|? x IH]; intros [|? y] s t L E; try discriminate; [split; [reflexivity|exact E]|]. cbn in L, E. injection E as -> E. injection L as L.
    destruct (IH _ _ _ L E) as [-> ->]. split; reflexivity. }
  apply J in H as [-> H]; [|congruence]. apply app_inv_head in H. apply J in H as [-> H]; [|congruence]. apply app_inv_head in H.
  apply J in H as [-> H]; [|congruence]. apply app_inv_head in H. apply J in H as [-> H]; [|congruence]. apply app_inv_head in H.
  apply J in H as [-> _]; [|congruence]. reflexivity.
Qed.
Lemma identifier_fun h id1 id2 : identifier h id1 -> identifier h id2 -> id1 = id2.
Proof.
  intros (a & b & c & d & e & -> & La & Lb & Lc & Ld & Le & -> ) (a' & b' & c' & d' & e' & H & La' & Lb' & Lc' & Ld' & Le' & -> ).
  assert (J : forall (x y s t : bytes), List.length x = List.length y -> x ++ s = y ++ t -> x = y /\ s = t).
  { induction x as [|? x IH]; intros [|? y] s t L E; try discriminate; [split; [reflexivity|exact E]|]. cbn in L, E. injection E as -> E. injection L as L.
    destruct (IH _ _ _ L E) as [-> ->]. split; reflexivity. }
  apply J in H as [-> H]; [|congruence]. apply J in H as [-> H]; [|congruence]. apply J in H as [-> H]; [|congruence]. apply J in H as [-> ->]; [|congruence]. reflexivity.
Qed.
Lemma identifier_urn ds : List.length ds = 32 -> Forall (fun d => d < 16)%N ds -> identifier (map hex_char ds) (urn (value ds)).
Proof.
  intros H Hd. unfold urn, uuid_str. pose proof (hex_digits_value ds Hd) as E. rewrite H in E. cbn zeta. rewrite E. apply identifier_of. rewrite map_length. exact H.
Qed.

Lemma sixteen_nibbles s : Forall byte s -> 16 <= List.length s ->
  List.length (nibbles (firstn 16 s)) = 32 /\ Forall (fun d => d < 16)%N (nibbles (firstn 16 s)) /\ Forall byte (firstn 16 s).
Proof.
  intros Hb Hl. assert (Hf : Forall byte (firstn 16 s)).
  { apply Forall_forall. intros x Hx. rewrite Forall_forall in Hb. apply Hb. rewrite <- (firstn_skipn 16 s). apply in_or_app. left. exact Hx. }
  split; [|split; [apply nibbles_lt; exact Hf|exact Hf]]. rewrite nibbles_length, firstn_length. lia.
Qed.

(** C70: an identifier made from a text is <urn:uuid:8-4-4-4-12> with the lower case hexadecimal
    digits of the first sixteen bytes of the text's SHA-1 digest (20 bytes).  Quantified over the
    hash function, so nothing about SHA-1 itself is used but the length of its output. *)
Theorem C70_identifier_of_text : forall (sha1 : bytes -> bytes) (text : bytes),
  Forall byte (sha1 text) -> List.length (sha1 text) = 20 ->
  exists h, hex_of (firstn 16 (sha1 text)) h /\ identifier h (warc_uuid sha1 text).
Proof.
  intros sha1 text Hb Hl. destruct (sixteen_nibbles (sha1 text) Hb) as (H1 & H2 & H3); [lia|]. exists (hexdigest (firstn 16 (sha1 text))).
  split; [apply hex_of_hexdigest; exact H3|]. rewrite hexdigest_nibbles. unfold warc_uuid. rewrite hexdigest_nibbles.
  change 32 with (2 * 16). rewrite firstn_map, <- nibbles_firstn, hex_int_chars by exact H2. apply identifier_urn; assumption.
Qed.

(** C70: two texts get the same identifier exactly when the first sixteen bytes of their digests
    agree: nothing but the digest enters, and none of the sixteen bytes is lost *)
Theorem C70_same_identifier : forall (sha1 : bytes -> bytes) (a b : bytes),
  Forall byte (sha1 a) -> List.length (sha1 a) = 20 -> Forall byte (sha1 b) -> List.length (sha1 b) = 20 ->
  (warc_uuid sha1 a = warc_uuid sha1 b <-> firstn 16 (sha1 a) = firstn 16 (sha1 b)).
Proof.
  intros sha1 a b Ha La Hb Lb. destruct (C70_identifier_of_text sha1 a Ha La) as (h & Hh & Hi). destruct (C70_identifier_of_text sha1 b Hb Lb) as (h' & Hh' & Hi').
  apply hex_of_eq in Hh as [E _]. apply hex_of_eq in Hh' as [E' _]. split; intro H.
  - rewrite H in Hi. pose proof (identifier_inj _ _ _ Hi Hi') as K. rewrite E, E', !hexdigest_nibbles in K.
    apply nibbles_inj. destruct (sixteen_nibbles (sha1 a) Ha) as (_ & K1 & _); [lia|]. destruct (sixteen_nibbles (sha1 b) Hb) as (_ & K2 & _); [lia|].
    revert K. generalize dependent (nibbles (firstn 16 (sha1 b))). generalize dependent (nibbles (firstn 16 (sha1 a))).
    clear. induction l as [|x l IH]; intros Hx [|y l'] Hy K; try reflexivity; try discriminate. inversion Hx; subst. inversion Hy; subst. cbn in K. injection K as K1 K2.
    f_equal; [apply hex_char_inj; assumption|apply IH; assumption].
  - rewrite E, H, <- E' in Hi. exact (identifier_fun _ _ _ Hi Hi').
Qed.

(** ** Random identifiers *)
Lemma digit_bits n j : digit n j = N.land (N.shiftr n (4 * N.of_nat j)) 15.
Proof.
  unfold digit. change 15%N with (N.ones 4). rewrite N.land_ones, N.shiftr_div_pow2. rewrite N.pow_mul_r. reflexivity.
Qed.
Lemma digit_lor a b j : digit (N.lor a b) j = N.lor (digit a j) (digit b j).
Proof. rewrite !digit_bits, N.shiftr_lor. apply N.land_lor_distr_l. Qed.
Lemma digit_ldiff a b j : digit (N.ldiff a b) j = N.ldiff (digit a j) (digit b j).
Proof.
  rewrite !digit_bits, N.shiftr_ldiff. apply N.bits_inj. intro i. rewrite N.ldiff_spec, !N.land_spec, N.ldiff_spec.
  destruct (N.testbit _ i), (N.testbit _ i), (N.testbit 15 i); reflexivity.
Qed.
Definition force (j : nat) (d : N) : N := N.lor (N.ldiff (N.lor (N.ldiff d (digit (N.shiftl 49152 48) j)) (digit (N.shiftl 32768 48) j)) (digit (N.shiftl 61440 64) j)) (digit (N.shiftl 4 76) j).
Lemma digit_uuid4 n j : digit (uuid4_int n) j = force j (digit n j).
Proof. unfold uuid4_int, force. cbv zeta. rewrite digit_lor, digit_ldiff, digit_lor, digit_ldiff. reflexivity. Qed.
Definition forced (j : nat) (d : N) : N := if Nat.eqb j 19 then 4%N else if Nat.eqb j 15 then (8 + N.modulo d 4)%N else d.
Lemma force_forced j d : j < 32 -> (d < 16)%N -> force j d = forced j d.
Proof.
  intros Hj Hd. assert (Hin : In j (seq 0 32)) by (apply in_seq; lia). assert (Hdin : In d (map N.of_nat (seq 0 16))).
  { apply in_map_iff. exists (N.to_nat d). split; [apply N2Nat.id|]. apply in_seq. lia. }
  assert (E : forallb (fun j => forallb (fun d => N.eqb (force j d) (forced j d)) (map N.of_nat (seq 0 16))) (seq 0 32) = true) by (vm_compute; reflexivity).
  rewrite forallb_forall in E. apply E in Hin. rewrite forallb_forall in Hin. apply Hin in Hdin. apply N.eqb_eq. exact Hdin.
Qed.
Lemma digit_lt n j : (digit n j < 16)%N.
Proof. apply N.mod_lt. discriminate. Qed.
Lemma map_hex_inj : forall l l', Forall (fun d => d < 16)%N l -> Forall (fun d => d < 16)%N l' -> map hex_char l = map hex_char l' -> l = l'.
Proof.
  induction l as [|x l IH]; intros [|y l'] Hx Hy K; try reflexivity; try discriminate. inversion Hx; subst. inversion Hy; subst. cbn in K. injection K as K1 K2.
  f_equal; [apply hex_char_inj; assumption|apply IH; assumption].
Qed.
Lemma digits_value ds : Forall (fun d => d < 16)%N ds -> map (digit (value ds)) (rev (seq 0 (List.length ds))) = ds.
Proof.
  intro H. apply map_hex_inj; [|exact H|].
  - apply Forall_forall. intros x Hx. apply in_map_iff in Hx as (j & <- & _). apply digit_lt.
  - rewrite map_map. rewrite <- hex_digits_map. apply hex_digits_value. exact H.
Qed.
Definition set_version (ds : list N) : list N :=
  firstn 12 ds ++ [4%N] ++ firstn 3 (skipn 13 ds) ++ [(8 + N.modulo (nth 16 ds 0) 4)%N] ++ skipn 17 ds.
Lemma uuid4_digits ds : List.length ds = 32 -> Forall (fun d => d < 16)%N ds ->
  hex_digits 32 (uuid4_int (value ds)) = map hex_char (set_version ds).
Proof.
  intros Hl Hd. rewrite hex_digits_map.
  assert (E : map (fun j => hex_char (digit (uuid4_int (value ds)) j)) (rev (seq 0 32)) = map (fun j => hex_char (forced j (digit (value ds) j))) (rev (seq 0 32))).
  { apply map_ext_in. intros j Hj. apply in_rev in Hj. apply in_seq in Hj. f_equal. rewrite digit_uuid4. apply force_forced; [lia|apply digit_lt]. }
  etransitivity; [exact E|]. pose proof (digits_value ds Hd) as V. rewrite Hl in V. transitivity (map hex_char (set_version (map (digit (value ds)) (rev (seq 0 32))))); [|rewrite V; reflexivity].
  generalize (digit (value ds)). intro f. reflexivity.
Qed.
Lemma set_version_lt ds : List.length ds = 32 -> Forall (fun d => d < 16)%N ds -> Forall (fun d => d < 16)%N (set_version ds).
Proof.
  intros Hl Hd. rewrite Forall_forall in *. intros x Hx. unfold set_version in Hx. rewrite !in_app_iff in Hx.
  assert (F : forall n (l : list N), In x (firstn n l) -> In x l) by (intros n l H; rewrite <- (firstn_skipn n l); apply in_or_app; left; exact H).
  assert (G : forall n (l : list N), In x (skipn n l) -> In x l) by (intros n l H; rewrite <- (firstn_skipn n l); apply in_or_app; right; exact H).
  destruct Hx as [H|[[<-|[]]|[H|[[<-|[]]|H]]]]; try lia.
  - eauto.
  - eauto.
  - eauto.
Qed.
Lemma set_version_length ds : List.length ds = 32 -> List.length (set_version ds) = 32.
Proof. intro H. unfold set_version. rewrite !app_length, !firstn_length, !skipn_length. cbn [List.length]. lia. Qed.
Lemma identifier_random r : Forall byte r -> List.length r = 16 -> identifier (map hex_char (set_version (nibbles r))) (random_warc_uuid r).
Proof.
  intros Hb Hl. assert (L : List.length (nibbles r) = 32) by (rewrite nibbles_length; lia). pose proof (nibbles_lt r Hb) as Hd.
  unfold random_warc_uuid, urn, uuid_str. cbv zeta. rewrite bytes_int_value, (uuid4_digits _ L Hd). apply identifier_of. rewrite map_length. apply set_version_length. exact L.
Qed.

(** C70: a random identifier has the digits of the sixteen random bytes, but the thirteenth digit is
    4 (the version) and the seventeenth keeps only its two low bits (8, 9, a or b: the variant) *)
Theorem C70_random_identifier : forall (random : bytes), Forall byte random -> List.length random = 16 ->
  exists h x v, hex_of random h /\ nth_error h 16 = nth_error hex_alphabet x /\ x < 16 /\
    nth_error hex_alphabet (8 + Nat.modulo x 4) = Some v /\
    identifier (firstn 12 h ++ B "4" ++ firstn 3 (skipn 13 h) ++ [v] ++ skipn 17 h) (random_warc_uuid random).
Proof.
  intros r Hb Hl. assert (L : List.length (nibbles r) = 32) by (rewrite nibbles_length; lia). pose proof (nibbles_lt r Hb) as Hd.
  set (d := nth 16 (nibbles r) 0%N). assert (Hd16 : (d < 16)%N) by (rewrite Forall_forall in Hd; apply Hd; apply nth_In; lia).
  assert (Em : N.of_nat (8 + Nat.modulo (N.to_nat d) 4) = (8 + N.modulo d 4)%N).
  { rewrite Nat2N.inj_add. f_equal. rewrite Nat2N.inj_mod, N2Nat.id. reflexivity. }
  exists (hexdigest r), (N.to_nat d), (hex_char (8 + N.modulo d 4)). split; [apply hex_of_hexdigest; exact Hb|]. split; [|split; [lia|split]].
  - rewrite hex_char_alphabet by exact Hd16. rewrite hexdigest_nibbles. apply map_nth_error. apply nth_error_nth'. lia.
  - pose proof (hex_char_alphabet (8 + N.modulo d 4)) as A. rewrite <- Em in A at 1 2. rewrite Nat2N.id in A. apply A.
    assert (N.modulo d 4 < 4)%N by (apply N.mod_lt; discriminate). lia.
  - rewrite hexdigest_nibbles. pose proof (identifier_random r Hb Hl) as I. unfold set_version in I. fold d in I.
    rewrite !map_app, <- !skipn_map, <- !firstn_map, <- !skipn_map in I. exact I.
Qed.

(** C70: two random identifiers are the same exactly when the random bytes agree in all but the
    six bits that are fixed: the high four of the seventh byte and the high two of the ninth *)
Theorem C70_same_random_identifier : forall (r s : bytes),
  Forall byte r -> List.length r = 16 -> Forall byte s -> List.length s = 16 ->
  (random_warc_uuid r = random_warc_uuid s <->
   firstn 6 r = firstn 6 s /\ N.modulo (nth 6 r 0%N) 16 = N.modulo (nth 6 s 0%N) 16 /\ nth 7 r 0%N = nth 7 s 0%N /\
   N.modulo (nth 8 r 0%N) 64 = N.modulo (nth 8 s 0%N) 64 /\ skipn 9 r = skipn 9 s).
Proof.
  intros r s Hr Lr Hs Ls.
  assert (K : random_warc_uuid r = random_warc_uuid s <-> set_version (nibbles r) = set_version (nibbles s)).
  { pose proof (identifier_random r Hr Lr) as I. pose proof (identifier_random s Hs Ls) as J. split; intro H.
    - rewrite H in I. pose proof (identifier_inj _ _ _ I J) as E. assert (L : List.length (nibbles r) = 32) by (rewrite nibbles_length; lia).
      assert (L' : List.length (nibbles s) = 32) by (rewrite nibbles_length; lia).
      apply map_hex_inj in E; [exact E|apply set_version_lt; [exact L|apply nibbles_lt; exact Hr]|apply set_version_lt; [exact L'|apply nibbles_lt; exact Hs]].
    - rewrite H in I. exact (identifier_fun _ _ _ I J). }
  rewrite K. clear K.
  assert (M : forall a b : N, N.modulo a 64 = N.modulo b 64 <-> N.modulo (N.div a 16) 4 = N.modulo (N.div b 16) 4 /\ N.modulo a 16 = N.modulo b 16).
  { intros a b. assert (Q : forall x, N.modulo x 64 = (N.modulo x 16 + 16 * N.modulo (N.div x 16) 4)%N) by (intro x; change 64%N with (16 * 4)%N; apply N.mod_mul_r; discriminate).
    rewrite !Q. assert (N.modulo a 16 < 16)%N by (apply N.mod_lt; discriminate). assert (N.modulo b 16 < 16)%N by (apply N.mod_lt; discriminate). lia. }
  assert (D : forall a b : N, a = b <-> N.div a 16 = N.div b 16 /\ N.modulo a 16 = N.modulo b 16).
  { intros a b. split; [intros ->; split; reflexivity|]. intros [H1 H2]. rewrite (N.div_mod a 16), (N.div_mod b 16) by discriminate. rewrite H1, H2. reflexivity. }
  assert (P : forall x y : N, (8 + x = 8 + y)%N <-> x = y) by lia.
  assert (C : forall (a b : N) l l', a :: l = b :: l' <-> a = b /\ l = l') by (intros a b l l'; split; [intro H; injection H as -> ->; split; reflexivity|intros [-> ->]; reflexivity]).
  clear Hr Hs.
  do 16 (destruct r as [|? r]; [discriminate|]); destruct r; [|discriminate].
  do 16 (destruct s as [|? s]; [discriminate|]); destruct s; [|discriminate].
  unfold set_version, nibbles. cbn [map concat app firstn skipn nth].
  rewrite M. rewrite !C. setoid_rewrite P.
  split; intro H; decompose [and] H; clear H; repeat split; try assumption; try (apply D; split; assumption); subst; reflexivity.
Qed.

(** ** Identifiers as header values *)
Lemma identifier_value_ok h id : Forall (fun c => In c hex_alphabet) h -> identifier h id -> value_ok id.
Proof.
  intros Hh (a & b & c & d & e & -> & _ & _ & _ & _ & _ & -> ). rewrite !Forall_app in Hh. destruct Hh as (Ha & Hb & Hc & Hd & He).
  assert (N1 : forall s, Forall (fun c => In c hex_alphabet) s -> ~ In LF s).
  { intros s Hs Hi. rewrite Forall_forall in Hs. apply Hs in Hi. vm_compute in Hi. repeat (destruct Hi as [Hi|Hi]; [discriminate|]). destruct Hi. }
  split.
  - assert (N2 : forall s, existsb (N.eqb LF) s = false -> ~ In LF s).
    { intros s E Hi. rewrite <- not_true_iff_false in E. apply E. apply existsb_exists. exists LF. split; [exact Hi|apply N.eqb_refl]. }
    apply N1 in Ha, Hb, Hc, Hd, He. unfold no_lf. rewrite !in_app_iff. intros [H|[H|[H|[H|[H|[H|[H|[H|[H|[H|H]]]]]]]]]]; try contradiction; revert H; apply N2; reflexivity.
  - apply strip_trimmed. split.
    + intros x t E. change (B "<urn:uuid:") with (60%N :: B "urn:uuid:") in E. injection E as <- _. reflexivity.
    + intros t x E. change (B ">") with [62%N] in E. rewrite !app_assoc in E. apply app_inj_tail in E as [_ <-]. reflexivity.
Qed.
Lemma hex_chars ds : Forall (fun d => d < 16)%N ds -> Forall (fun c => In c hex_alphabet) (map hex_char ds).
Proof. intro H. apply Forall_forall. intros c Hc. apply in_map_iff in Hc as (d & <- & Hd). rewrite Forall_forall in H. eapply nth_error_In. apply hex_char_alphabet. auto. Qed.
(** a hash function with the output of SHA-1 *)
Definition sha1_shaped (sha1 : bytes -> bytes) : Prop := forall t, Forall byte (sha1 t) /\ List.length (sha1 t) = 20.

(** C70: both kinds of identifier are one line without white space at its ends, so as a header value
    they come back from a written record as they were (C01) *)
Theorem C70_identifiers_are_header_values :
  (forall (sha1 : bytes -> bytes) text, sha1_shaped sha1 -> value_ok (warc_uuid sha1 text)) /\
  (forall random, Forall byte random -> List.length random = 16 -> value_ok (random_warc_uuid random)).
Proof.
  split.
  - intros sha1 text H. destruct (H text) as [Hb Hl]. destruct (C70_identifier_of_text sha1 text Hb Hl) as (h & Hh & Hi).
    apply hex_of_eq in Hh as [E Hf]. apply (identifier_value_ok h); [|exact Hi]. rewrite E, hexdigest_nibbles. apply hex_chars, nibbles_lt. exact Hf.
  - intros r Hb Hl. assert (L : List.length (nibbles r) = 32) by (rewrite nibbles_length; lia).
    apply (identifier_value_ok _ _ (hex_chars _ (set_version_lt _ L (nibbles_lt r Hb))) (identifier_random r Hb Hl)).
Qed.

(** C70: with the identifiers the converter makes, the output of arc2warc reads back record by record
    (C50_output_reads_back without its hypothesis on identifiers) *)
Theorem C70_converted_archive_reads_back : forall (sha1 : bytes -> bytes) gunzip http_gz clock fields resources responses
    (files : list input) (l : list units) (ws : list wrec) final,
  sha1_shaped sha1 ->
  byte_prefixes resources -> byte_prefixes responses -> Forall2 (holds_units gunzip) files l -> Forall (all_tidy []) l ->
  becomes_files (warc_uuid sha1) clock http_gz fields resources responses l (None, 0) ws final ->
  exists text, arc2warc gunzip http_gz (warc_uuid sha1) clock None false fields resources responses files = (Ret tt, text) /\
  forall st, opened_on text st -> exists st',
    for_read_records None true look [] st = (Ret tt, seen_archive Some 0 (map (fun w => (w, terminator)) ws), st').
Proof.
  intros sha1 gunzip hg clock fields res rsp files l ws final Hs H1 H2 H3 H4 H5.
  apply (C50_output_reads_back gunzip hg (warc_uuid sha1) clock fields res rsp files l ws final); try assumption.
  intro x. exact (proj1 C70_identifiers_are_header_values sha1 x Hs).
Qed.

(** ** Digests *)
(** C70: the digest of a content is sha256: and the digits of its SHA-256 digest, so two contents have
    the same digest text exactly when their SHA-256 digests are the same *)
Theorem C70_block_digest : forall (sha256 : bytes -> bytes), (forall t, Forall byte (sha256 t)) ->
  (forall content, exists h, hex_of (sha256 content) h /\ block_digest sha256 content = B "sha256:" ++ h) /\
  (forall a b, block_digest sha256 a = block_digest sha256 b <-> sha256 a = sha256 b).
Proof.
  intros sha256 H. split.
  - intro c. exists (hexdigest (sha256 c)). split; [apply hex_of_hexdigest, H|reflexivity].
  - intros a b. split; [|intro E; unfold block_digest; rewrite E; reflexivity]. unfold block_digest. intro E. apply app_inv_head in E.
    rewrite !hexdigest_nibbles in E. apply nibbles_inj. apply map_hex_inj; [apply nibbles_lt, H|apply nibbles_lt, H|exact E].
Qed.

(** the headers of a record whose values are all bytes *)
Definition bytes_values (hs : list header) : list (bytes * hval) := map (fun h => (fst h, HBytes (snd h))) hs.
Lemma write_bytes_values ff nl hs t : write_values ff nl (bytes_values hs ++ t) = (write_headers ff nl hs ++ fst (write_values ff nl t), snd (write_values ff nl t)).
Proof.
  induction hs as [|[k v] hs IH]; [cbn [bytes_values map app]; unfold write_headers; cbn [filter map concat app]; destruct (write_values ff nl t); reflexivity|]. cbn [bytes_values map app fst snd write_values].
  change (map (fun h => (fst h, HBytes (snd h))) hs) with (bytes_values hs). unfold write_headers in *. cbn [filter].
  change (keeps_header ff (k, v)) with (keeps_header ff (k, [])). rewrite IH. destruct (keeps_header ff (k, [])); [|reflexivity].
  cbn [map concat]. rewrite <- app_assoc. reflexivity.
Qed.
(** with bytes only, this is the beginning of what write_to writes for a record with a content of its own *)
Lemma write_head_agrees v hs ct body st : exists rest,
  write_to None CRLF (tuple_rec v hs ct body) st =
  (Ret tt, tuple_rec v hs ct body, st, snd (write_head false CRLF v (bytes_values hs)) ++ rest).
Proof.
  rewrite (write_tuple None v hs ct body st). cbv zeta. unfold write_head. pose proof (write_bytes_values false CRLF hs []) as E. rewrite app_nil_r in E. rewrite E.
  cbn [write_values fst snd]. rewrite app_nil_r, tuple_head, write_headers_eq. eexists. rewrite <- !app_assoc. reflexivity.
Qed.
(** the header lines a record writes: with a content of its own, not Content-Type and Content-Length *)
Definition written_lines (from_file : bool) (hs : list header) : bytes :=
  concat (map (fun h : header => fst h ++ B ": " ++ snd h ++ CRLF)
    (filter (fun h : header => from_file || negb (bytes_eqb (fst h) (B "Content-Type") || bytes_eqb (fst h) (B "Content-Length")))%bool hs)).

(** C70: block_digest's result is a text, not bytes: a record that is given it as a header value
    raises TypeError when it is written, in the middle of that header - the version, the headers
    before it, its name and the colon are in the file, and nothing else.
    Values given as bytes write, so the same digest encoded to bytes does. *)
Theorem C70_digest_as_header : forall (sha256 : bytes -> bytes) from_file version before name content after,
  name <> B "Content-Type" -> name <> B "Content-Length" ->
  write_head from_file CRLF version (bytes_values before ++ (name, HText (block_digest sha256 content)) :: after) =
    (Raise ETypeError, version ++ CRLF ++ written_lines from_file before ++ name ++ B ": ") /\
  write_head from_file CRLF version (bytes_values (before ++ [(name, block_digest sha256 content)])) =
    (Ret tt, version ++ CRLF ++ written_lines from_file before ++ name ++ B ": " ++ block_digest sha256 content ++ CRLF).
Proof.
  intros sha256 ff v before name content after H1 H2.
  assert (K : keeps_header ff (name, []) = true).
  { unfold keeps_header. cbn [fst]. change CONTENT_TYPE with (B "Content-Type"). change CONTENT_LENGTH with (B "Content-Length"). rewrite (proj2 (bytes_eqb_neq _ _) H1), (proj2 (bytes_eqb_neq _ _) H2). destruct ff; reflexivity. }
  split; unfold write_head.
  - rewrite write_bytes_values. cbn [write_values]. rewrite K. cbn [fst snd]. reflexivity.
  - pose proof (write_bytes_values ff CRLF (before ++ [(name, block_digest sha256 content)]) []) as E. rewrite app_nil_r in E. rewrite E. cbn [write_values fst snd]. rewrite app_nil_r.
    unfold write_headers. rewrite filter_app, map_app, concat_app. cbn [filter].
    change (keeps_header ff (name, block_digest sha256 content)) with (keeps_header ff (name, [])). rewrite K. cbn [map concat]. rewrite app_nil_r. reflexivity.
Qed.

(** ** Examples *)
(** a stand-in for SHA-1: the bytes of the text, filled up to twenty *)
Definition ex_sha1 (t : bytes) : bytes := firstn 20 (map (fun c => N.modulo c 256) t ++ List.repeat 171%N 20).
Lemma ex_sha1_shaped : sha1_shaped ex_sha1.
Proof.
  intro t. unfold ex_sha1. split.
  - apply Forall_forall. intros x Hx. assert (Hi : In x (map (fun c => N.modulo c 256) t ++ List.repeat 171%N 20)).
    { rewrite <- (firstn_skipn 20 (map (fun c => N.modulo c 256) t ++ List.repeat 171%N 20)). apply in_or_app. left. exact Hx. }
    apply in_app_or in Hi as [Hi|Hi].
    + apply in_map_iff in Hi as (c & <- & _). apply N.mod_lt. discriminate.
    + apply repeat_spec in Hi. subst x. reflexivity.
  - rewrite firstn_length, app_length, repeat_length. lia.
Qed.
Example C70_ids_met :
  sha1_shaped ex_sha1 /\
  warc_uuid ex_sha1 (B "http://a") = B "<urn:uuid:68747470-3a2f-2f61-abab-abababababab>" /\
  warc_uuid ex_sha1 (B "http://b") <> warc_uuid ex_sha1 (B "http://a") /\
  (** only sixteen of the twenty bytes count *)
  warc_uuid ex_sha1 (B "http://example/a") = warc_uuid ex_sha1 (B "http://example/abc") /\
  (exists ws final, becomes_files (warc_uuid ex_sha1) ex_clock no_gz [] [] [] [ex_convert] (None, 0) ws final /\ List.length ws = 6).
Proof.
  split; [apply ex_sha1_shaped|]. split; [vm_compute; reflexivity|]. split; [vm_compute; discriminate|]. split; [vm_compute; reflexivity|].
  destruct (ex_becomes_any (warc_uuid ex_sha1)) as (ws & final & H & E & _). exists ws, final. split; assumption.
Qed.
Definition ex_random : bytes := [1; 35; 69; 103; 137; 171; 205; 239; 254; 220; 186; 152; 118; 84; 50; 16]%N.
Example C70_random_met :
  Forall byte ex_random /\ List.length ex_random = 16 /\
  random_warc_uuid ex_random = B "<urn:uuid:01234567-89ab-4def-bedc-ba9876543210>" /\
  (** other bits where they are fixed: the same identifier *)
  random_warc_uuid [1; 35; 69; 103; 137; 171; 13; 239; 62; 220; 186; 152; 118; 84; 50; 16]%N = random_warc_uuid ex_random /\
  (** another bit anywhere else: another identifier *)
  random_warc_uuid [1; 35; 69; 103; 137; 171; 205; 239; 222; 220; 186; 152; 118; 84; 50; 16]%N <> random_warc_uuid ex_random.
Proof.
  split; [repeat constructor|]. split; [reflexivity|]. split; [vm_compute; reflexivity|]. split; [vm_compute; reflexivity|]. vm_compute. discriminate.
Qed.
Example C70_digest_met :
  (forall t, Forall byte (ex_sha1 t)) /\ block_digest ex_sha1 (B "a") = B "sha256:61" ++ concat (List.repeat (B "ab") 19) /\
  write_head false CRLF (B "WARC/1.0") [(B "WARC-Type", HBytes (B "resource")); (B "WARC-Block-Digest", HText (block_digest ex_sha1 (B "a"))); (B "X", HBytes (B "y"))] =
    (Raise ETypeError, B "WARC/1.0" ++ CRLF ++ B "WARC-Type: resource" ++ CRLF ++ B "WARC-Block-Digest: ") /\
  write_head false CRLF (B "WARC/1.0") [(B "Content-Type", HText (B "a/b"))] = (Ret tt, B "WARC/1.0" ++ CRLF).
Proof. split; [intro t; apply ex_sha1_shaped|]. repeat split; vm_compute; reflexivity. Qed.
