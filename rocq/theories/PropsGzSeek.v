(** C89: seeking in a compressed archive. *)
From Verif Require Export GzSeek PropsRecord PropsPlace Checks.
From Coq Require Import String List Lia ZArith.
Open Scope list_scope.

(** ** Specification *)
(** An archive in which every record is one gzip member; where record [i] begins in it. *)
Definition packed (deflate : bytes -> bytes) (a : archive) : bytes :=
  concat (map (fun p => deflate (wrec_text (fst p) ++ snd p)) a).
Definition place (deflate : bytes -> bytes) (a : archive) (i : nat) : nat := List.length (packed deflate (firstn i a)).
(** A history: asking for the next record and reading in it, while the decompressor takes in [t] more
    records; seeking to the beginning of record [i] (or to the end of the archive). *)
Inductive gzcall : Type := Next (reads : list cop) (t : nat) | SeekTo (i : nat).
(** The calls as the stream sees them.  [j]: the compressed file is before record [j]. *)
Fixpoint as_made (deflate : bytes -> bytes) (a : archive) (j : nat) (calls : list gzcall) : list (gcall * nat) :=
  match calls with
  | [] => []
  | Next reads t :: rest => (GNext reads, place deflate a (j + t) - place deflate a j) :: as_made deflate a (j + t) rest
  | SeekTo i :: rest => (GSeek (Z.of_nat (place deflate a i)), 0) :: as_made deflate a i rest
  end.
(** A record is handed out: version, headers, and the pieces of the payload that were read *)
Definition handing (w : wrec) (reads : list cop) : ganswer :=
  GItem (None, Some (mkrec (RWarc (w_version w)) (w_headers w) [] None CF_stream true), []) (Ret (pieces reads (w_body w))).
Definition ending : ganswer := GItem (None, None, []) (Ret []).
(** What the answers should be, with the queue [q] of the records that have been taken in and
    not been handed out: a record always comes from the queue, and seeking does not touch the queue. *)
Fixpoint expected (a q : archive) (j : nat) (calls : list gzcall) : list ganswer :=
  match calls with
  | [] => []
  | Next reads t :: rest =>
      match q ++ firstn t (skipn j a) with
      | [] => ending :: expected a [] (j + t) rest
      | (w, _) :: q' => handing w reads :: expected a q' (j + t) rest
      end
  | SeekTo i :: rest => GMoved :: expected a q i rest
  end.
(** Nothing is handed out before it is taken in, and the end is reported only when the file is at its end *)
Fixpoint feasible (a q : archive) (j : nat) (calls : list gzcall) : Prop :=
  match calls with
  | [] => True
  | Next reads t :: rest =>
      Forall limit_ok reads /\ j + t <= List.length a /\
      match q ++ firstn t (skipn j a) with
      | [] => j + t = List.length a /\ feasible a [] (j + t) rest
      | _ :: q' => feasible a q' (j + t) rest
      end
  | SeekTo i :: rest => i <= List.length a /\ feasible a q i rest
  end.

(** ** Lemmas *)
Section Lemmas.
  Variables (deflate gunzip : bytes -> bytes) (a : archive).
  Hypothesis Hgz : gzip_pair deflate gunzip.
  Hypothesis Hok : archive_ok a.
  Lemma packed_app x y : packed deflate (x ++ y) = packed deflate x ++ packed deflate y.
  Proof. unfold packed. rewrite map_app. apply concat_app. Qed.
  Lemma gunzip_packed x : gunzip (packed deflate x) = archive_text x.
  Proof.
    destruct Hgz as [_ H]. unfold packed. rewrite <- (map_map (fun p => wrec_text (fst p) ++ snd p) deflate), H. reflexivity.
  Qed.
  Lemma text_app x y : archive_text (x ++ y) = archive_text x ++ archive_text y.
  Proof. unfold archive_text. rewrite map_app. apply concat_app. Qed.
  Lemma rest_place j strict : f_rest (mkfile (packed deflate a) (place deflate a j) strict) = packed deflate (skipn j a).
  Proof.
    unfold f_rest, place. cbn [f_pos f_data]. rewrite <- (firstn_skipn j a) at 2. rewrite packed_app, skipn_app, skipn_all, Nat.sub_diag. reflexivity.
  Qed.
  Lemma skip_skip {A} (l : list A) j : forall t, skipn t (skipn j l) = skipn (j + t) l.
  Proof. revert l. induction j as [|j IH]; intros l t; [reflexivity|]. destruct l; [rewrite !skipn_nil; reflexivity|]. cbn [skipn Nat.add]. apply IH. Qed.
  Lemma firstn_more {A} (l : list A) j t : firstn (j + t) l = firstn j l ++ firstn t (skipn j l).
  Proof. revert l. induction j as [|j IH]; intros l; [reflexivity|]. destruct l; [cbn; rewrite firstn_nil; reflexivity|]. cbn. rewrite IH. reflexivity. Qed.
  Lemma place_more j t : place deflate a (j + t) = place deflate a j + List.length (packed deflate (firstn t (skipn j a))).
  Proof. unfold place. rewrite firstn_more, packed_app, app_length. reflexivity. Qed.
  (** the state of the stream: it is before the records of [q], and then those from [j] on *)
  Definition inv (g : gzs) (q : archive) (j : nat) : Prop :=
    exists h start strict, g_raw g = mkfile (packed deflate a) (place deflate a j) strict /\ g_seen g = packed deflate h /\
      f_data (s_fh (g_st g)) = archive_text (h ++ skipn j a) /\
      at_text (g_st g) start (archive_text (q ++ skipn j a)) /\ start + List.length (archive_text q) = List.length (archive_text h) /\
      s_kind (g_st g) = SGzipRecord /\ s_parser (g_st g) = PWarc /\ archive_ok q.
  Lemma ok_part j t : archive_ok (firstn t (skipn j a)).
  Proof.
    unfold archive_ok in *. rewrite <- (firstn_skipn j a) in Hok. apply Forall_app in Hok as [_ H]. rewrite <- (firstn_skipn t (skipn j a)) in H.
    apply Forall_app in H. apply H.
  Qed.
  Lemma inv_open strict : inv (g_open gunzip (mkfile (packed deflate a) 0 strict) PWarc) [] 0.
  Proof.
    exists [], 0, strict. split; [reflexivity|]. split; [reflexivity|]. unfold g_open, decompressed, f_rest. cbn [g_st new_stream s_fh f_data s_kind s_parser f_pos skipn app].
    rewrite gunzip_packed. split; [reflexivity|]. split; [|repeat split; constructor].
    left. split; [reflexivity|]. exists []. split; [reflexivity|]. split; [split; [intros c []|left; reflexivity]|reflexivity].
  Qed.
  Lemma inv_take g q j t : inv g q j -> inv (g_take g (place deflate a (j + t) - place deflate a j)) (q ++ firstn t (skipn j a)) (j + t).
  Proof.
    intros (h & start & strict & Hr & Hs & Hd & Hat & Hl & Hk & Hp & Hq).
    assert (Hsplit : skipn j a = firstn t (skipn j a) ++ skipn (j + t) a) by (rewrite <- skip_skip; symmetry; apply firstn_skipn).
    pose proof (place_more j t) as Hpl. remember (firstn t (skipn j a)) as m eqn:Em.
    exists (h ++ m), start, strict. unfold g_take. cbn [g_raw g_seen g_st].
    rewrite Hr, rest_place, Hs. split; [unfold f_advance; cbn [f_data f_pos f_strict]; f_equal; lia|].
    split.
    { rewrite Hsplit, !packed_app. f_equal. replace (place deflate a (j + t) - place deflate a j) with (List.length (packed deflate m)) by lia.
      rewrite firstn_app, firstn_all, Nat.sub_diag, app_nil_r. reflexivity. }
    split; [rewrite Hd, <- app_assoc, <- Hsplit; reflexivity|]. split; [rewrite <- app_assoc, <- Hsplit; exact Hat|].
    split; [rewrite !text_app, !app_length; lia|]. split; [exact Hk|]. split; [exact Hp|]. apply Forall_app. split; [exact Hq|]. rewrite Em. apply ok_part.
  Qed.
  Lemma tail_swap (H x y l : bytes) p : p <= List.length H -> skipn p (H ++ x) = l ++ x -> skipn p (H ++ y) = l ++ y.
  Proof.
    intros Hp E. rewrite skipn_app in *. replace (p - List.length H) with 0 in * by lia. cbn [skipn] in *. apply app_inv_tail in E. rewrite E. reflexivity.
  Qed.
  Lemma inv_seek g q j i : inv g q j -> i <= List.length a ->
    exists g', g_seek gunzip g (Z.of_nat (place deflate a i)) = (GMoved, g') /\ inv g' q i.
  Proof.
    intros (h & start & strict & Hr & Hs & Hd & Hat & Hl & Hk & Hp & Hq) Hi. unfold g_seek, f_seek. rewrite Hr. cbn [f_data f_strict f_pos].
    assert (E : (Z.of_nat (place deflate a i) <? 0)%Z = false) by lia. rewrite E, Nat2Z.id. eexists. split; [reflexivity|].
    exists h, start, strict. cbn [g_raw g_seen g_st set_fh s_fh f_data s_kind s_parser]. rewrite rest_place, Hs, <- packed_app, gunzip_packed.
    do 3 (split; [reflexivity|]). split; [|repeat split; assumption].
    rewrite !text_app in *.
    destruct Hat as [(He & sep & Hrest & Hsep & Hpos)|(left & sep & (He & Hrest) & Hsep & Hpos)].
    - left. split; [exact He|]. exists sep. split; [|split; [exact Hsep|exact Hpos]].
      unfold rest, f_rest, set_fh in *. cbn [s_fh f_pos f_data]. rewrite Hd in Hrest. rewrite app_assoc in *. eapply tail_swap; [|exact Hrest].
      unfold pos, f_tell in Hpos. lia.
    - right. exists left, sep. split; [split; [exact He|]|split; [exact Hsep|exact Hpos]].
      unfold rest, f_rest, set_fh in *. cbn [s_fh f_pos f_data]. rewrite Hd in Hrest. rewrite !app_assoc in *. eapply tail_swap; [|exact Hrest].
      unfold pos, f_tell in Hpos. lia.
  Qed.
  Lemma inv_next g w sep q j reads : inv g ((w, sep) :: q) j -> Forall limit_ok reads ->
    exists g', g_next g reads = (handing w reads, g') /\ inv g' q j.
  Proof.
    intros (h & start & strict & Hr & Hs & Hd & Hat & Hl & Hk & Hp & Hq) Hrd. inversion Hq as [|? ? [Hw Hsep] Hq']; subst. cbn [fst snd app] in *.
    destruct (read_first _ start w sep (q ++ skipn j a) true Hat Hp) as (st1 & E & Hi & Hk1 & Hp1 & Hf1 & Hpos1); [rewrite Hk; discriminate|exact Hw|].
    pose proof (read_record_later (g_st g) true) as [L1 _]. rewrite E in L1. cbn [snd] in L1. unfold g_next. rewrite E.
    destruct (run_cops_pieces st1 _ _ reads Hi Hrd) as (st2 & E2 & Hus2). rewrite E2.
    pose proof (later_cops reads st1) as L2. rewrite E2 in L2. cbn [snd] in L2.
    destruct (used_payload _ _ _ _ Hi Hus2) as (l & _ & Hp2 & Hk2 & _).
    eexists. split; [rewrite Hk; reflexivity|]. exists h, (start + List.length (wrec_text w) + List.length sep), strict. cbn [g_raw g_seen g_st].
    split; [exact Hr|]. split; [exact Hs|]. destruct L1 as [L1 _]. destruct L2 as [L2 _]. split; [congruence|].
    split; [apply (at_text_next st1 (w_body w) st2 sep); try assumption; lia|].
    split; [rewrite archive_text_cons, !app_length in Hl; lia|]. split; [congruence|]. split; [congruence|exact Hq'].
  Qed.
  Lemma inv_end g j reads : inv g [] j -> j = List.length a -> exists g', g_next g reads = (ending, g') /\ inv g' [] j.
  Proof.
    intros (h & start & strict & Hr & Hs & Hd & Hat & Hl & Hk & Hp & Hq) ->. rewrite skipn_all in *. cbn [app] in *. change (archive_text []) with (@nil N) in *.
    destruct (at_text_fresh _ _ _ Hat) as (st0 & Heq & He & Hrest & Hpos & Hk0 & Hp0 & Hf0).
    pose proof (read_record_later (g_st g) true) as [L1 _]. unfold g_next. rewrite Heq in L1 |- *.
    assert (Re : read_record st0 true = (Ret (item_offset (s_kind st0) true (pos st0), None, []), st0)).
    { apply read_end; [exact He|congruence|rewrite Hk0, Hk; discriminate|exact Hrest]. }
    rewrite Re in L1 |- *. cbn [snd] in L1. rewrite Hk0, Hk. cbn [item_offset].
    eexists. split; [reflexivity|]. exists h, start, strict. cbn [g_raw g_seen g_st]. rewrite skipn_all. cbn [app]. change (archive_text []) with (@nil N).
    split; [exact Hr|]. split; [exact Hs|]. split; [destruct L1 as [-> _]; exact Hd|]. split.
    - left. split; [exact He|]. exists []. split; [exact Hrest|]. split; [split; [intros c []|left; reflexivity]|]. cbn. lia.
    - repeat split; congruence.
  Qed.
  Lemma next_then_take g reads n : g_next (g_take g n) reads = (let '(x, g') := g_next g reads in (x, g_take g' n)).
  Proof.
    unfold g_next, g_take. cbn [g_raw g_seen g_st]. destruct (read_record (g_st g) true) as [[[[o [r|]] errs]|e|] st]; try reflexivity.
    destruct (run_cops st reads). reflexivity.
  Qed.
  Lemma run_ok : forall calls g q j, inv g q j -> feasible a q j calls ->
    fst (g_run gunzip g (as_made deflate a j calls)) = expected a q j calls.
  Proof.
    induction calls as [|[reads t|i] calls IH]; intros g q j Hi Hf; [reflexivity| |]; cbn [as_made g_run expected feasible g_call] in *.
    - destruct Hf as (Hrd & Ht & Hf). pose proof (inv_take g q j t Hi) as Hi'. pose proof (next_then_take g reads (place deflate a (j + t) - place deflate a j)) as Hnt.
      set (n := place deflate a (j + t) - place deflate a j) in *.
      destruct (q ++ firstn t (skipn j a)) as [|[w sep] q'].
      + destruct Hf as (Hend & Hf). destruct (inv_end _ _ reads Hi' Hend) as (g' & E & Hg'). rewrite E in Hnt.
        destruct (g_next g reads) as [x g1]. injection Hnt as <- ->. specialize (IH _ _ _ Hg' Hf). destruct (g_run gunzip _ _) as [xs g2]. cbn [fst] in *. rewrite IH. reflexivity.
      + destruct (inv_next _ w sep q' _ reads Hi' Hrd) as (g' & E & Hg'). rewrite E in Hnt.
        destruct (g_next g reads) as [x g1]. injection Hnt as <- ->. specialize (IH _ _ _ Hg' Hf). destruct (g_run gunzip _ _) as [xs g2]. cbn [fst] in *. rewrite IH. reflexivity.
    - destruct Hf as (Hil & Hf). destruct (inv_seek g q j i Hi Hil) as (g' & E & Hg'). rewrite E. specialize (IH _ _ _ Hg' Hf).
      destruct (g_run gunzip g' _) as [xs g2]. cbn [fst] in *. rewrite IH. reflexivity.
  Qed.
End Lemmas.

(** ** C89 *)
(** For every archive of which each record is a gzip member, and every history of asking for records,
    reading in them (any reads without negative limits) and seeking to beginnings of records: the
    answers are those of the queue.  A seek takes effect only when all that the decompressor had
    taken in before has been handed out. *)
Theorem C89_any_history : forall (deflate gunzip : bytes -> bytes) (a : archive) (strict : bool) (calls : list gzcall),
  gzip_pair deflate gunzip -> archive_ok a -> feasible a [] 0 calls ->
  fst (g_run gunzip (g_open gunzip (mkfile (packed deflate a) 0 strict) PWarc) (as_made deflate a 0 calls)) = expected a [] 0 calls.
Proof. intros deflate gunzip a strict calls Hgz Hok Hf. apply run_ok; try assumption. apply inv_open, Hgz. Qed.
(** the stream is the one that opening the file gives *)
Theorem C89_stream_as_opened : forall (deflate gunzip : bytes -> bytes) (a : archive) (strict named : bool) (m : gzmode),
  gzip_pair deflate gunzip -> a <> [] -> m = GAuto \/ m = GRecord ->
  open_stream gunzip AWarc named m (mkfile (packed deflate a) 0 strict) = Ret (g_st (g_open gunzip (mkfile (packed deflate a) 0 strict) PWarc)).
Proof.
  intros deflate gunzip a strict named m [Hm _] Hne [-> | ->]; [|reflexivity]. unfold open_stream. destruct named; [reflexivity|].
  assert (E : is_gzip_file (mkfile (packed deflate a) 0 strict) = (true, mkfile (packed deflate a) 0 strict)).
  { destruct a as [|p a]; [contradiction|]. unfold packed. cbn [map concat]. match goal with |- context [deflate ?x] => destruct (Hm x) as [t Et]; rewrite Et end.
    unfold is_gzip_file, f_read, f_rest. cbn [f_pos f_data skipn app Z.ltb Z.compare Z.to_nat Pos.to_nat Pos.iter_op Nat.add firstn List.length f_advance f_strict]. reflexivity. }
  rewrite E. reflexivity.
Qed.

(** Reading on without seeking hands out a list of records in order, then the end. *)
Fixpoint in_order (l : archive) (reads : list (list cop)) : list ganswer :=
  match reads with
  | [] => []
  | r :: rest => match l with [] => ending :: in_order [] rest | (w, _) :: l' => handing w r :: in_order l' rest end
  end.
Definition nexts (readings : list (list cop * nat)) : list gzcall := map (fun x => Next (fst x) (snd x)) readings.
Lemma expected_nexts a : forall readings q j, feasible a q j (nexts readings) ->
  expected a q j (nexts readings) = in_order (q ++ skipn j a) (map fst readings).
Proof.
  induction readings as [|[r t] readings IH]; intros q j Hf; [reflexivity|]. cbn [nexts map fst snd feasible expected in_order] in *. destruct Hf as (_ & Ht & Hf).
  assert (E : q ++ skipn j a = (q ++ firstn t (skipn j a)) ++ skipn (j + t) a) by (rewrite <- app_assoc, <- skip_skip, firstn_skipn; reflexivity).
  rewrite E. destruct (q ++ firstn t (skipn j a)) as [|[w sep] q'].
  - destruct Hf as (Hend & Hf). change (map (fun x => Next (fst x) (snd x)) readings) with (nexts readings) in *. rewrite (IH [] (j + t) Hf). rewrite Hend, skipn_all. reflexivity.
  - change (map (fun x => Next (fst x) (snd x)) readings) with (nexts readings) in *. rewrite (IH q' (j + t) Hf). reflexivity.
Qed.
(** Before anything was read a seek does what it says. *)
Theorem C89_seek_before_reading : forall (deflate gunzip : bytes -> bytes) (a : archive) (strict : bool) (i : nat) (readings : list (list cop * nat)),
  gzip_pair deflate gunzip -> archive_ok a -> i <= List.length a -> feasible a [] i (nexts readings) ->
  fst (g_run gunzip (g_open gunzip (mkfile (packed deflate a) 0 strict) PWarc) (as_made deflate a 0 (SeekTo i :: nexts readings))) =
    GMoved :: in_order (skipn i a) (map fst readings).
Proof.
  intros deflate gunzip a strict i readings Hgz Hok Hi Hf. rewrite C89_any_history; try assumption; [|split; assumption].
  cbn [expected]. rewrite expected_nexts by exact Hf. reflexivity.
Qed.
(** When the first read takes in the whole compressed file (any file of at most 8192 bytes), then after [k]
    records a seek only adds to what is handed out: the other records still come first, and
    the records from [i] on after them. *)
Definition first_of (k : nat) (reads : nat -> list cop) (n : nat) : list (list cop * nat) :=
  map (fun x => (reads x, if Nat.eqb x 0 then n else 0)) (seq 0 k).
Lemma first_of_S k reads n : first_of (S k) reads n = (reads 0, n) :: map (fun x => (reads (S x), 0)) (seq 0 k).
Proof. unfold first_of. cbn [seq map]. rewrite <- seq_shift, map_map. reflexivity. Qed.
Lemma feasible_buffered a j after : forall (ops : list (list cop)) q, List.length ops <= List.length q -> Forall (Forall limit_ok) ops -> j <= List.length a ->
  feasible a (skipn (List.length ops) q) j after -> feasible a q j (map (fun r => Next r 0) ops ++ after).
Proof.
  induction ops as [|r ops IH]; intros q Hl Hr Hj Hf; [exact Hf|]. inversion Hr as [|? ? Hr1 Hr2]; subst. cbn [map app feasible firstn]. split; [exact Hr1|]. split; [lia|].
  rewrite app_nil_r, Nat.add_0_r. destruct q as [|p q]; [cbn in Hl; lia|]. apply IH; try assumption. cbn in Hl. lia.
Qed.
Lemma expected_buffered a j after : forall (ops : list (list cop)) q, List.length ops <= List.length q ->
  expected a q j (map (fun r => Next r 0) ops ++ after) = in_order q ops ++ expected a (skipn (List.length ops) q) j after.
Proof.
  induction ops as [|r ops IH]; intros q Hl; [reflexivity|]. cbn [map app expected firstn in_order List.length].
  rewrite app_nil_r, Nat.add_0_r. destruct q as [|[w sep] q]; [cbn in Hl; lia|]. cbn [skipn app]. rewrite IH by (cbn in Hl; lia). reflexivity.
Qed.
Lemma in_order_firstn (f : nat -> list cop) : forall k q s, in_order q (map f (seq s k)) = in_order (firstn k q) (map f (seq s k)).
Proof.
  induction k as [|k IH]; intros [|[w s'] q] s; cbn [seq map firstn in_order]; try reflexivity. f_equal. apply IH.
Qed.
Theorem C89_seek_after_reading : forall (deflate gunzip : bytes -> bytes) (a : archive) (strict : bool) (k i : nat) (reads : nat -> list cop) (readings : list (list cop * nat)),
  gzip_pair deflate gunzip -> archive_ok a -> 0 < k <= List.length a -> i <= List.length a -> (forall x, Forall limit_ok (reads x)) ->
  feasible a (skipn k a) i (nexts readings) ->
  fst (g_run gunzip (g_open gunzip (mkfile (packed deflate a) 0 strict) PWarc)
        (as_made deflate a 0 (nexts (first_of k reads (List.length a)) ++ SeekTo i :: nexts readings))) =
    in_order (firstn k a) (map reads (seq 0 k)) ++ GMoved :: in_order (skipn k a ++ skipn i a) (map fst readings).
Proof.
  intros deflate gunzip a strict k i reads readings Hgz Hok Hk Hi Hr Hf. destruct k as [|k]; [lia|]. rewrite first_of_S.
  set (ops := map (fun x => reads (S x)) (seq 0 k)).
  assert (Hops : Forall (Forall limit_ok) ops) by (apply Forall_forall; intros x Hx; apply in_map_iff in Hx as (y & <- & _); apply Hr).
  assert (Hlen : List.length ops = k) by (unfold ops; rewrite map_length, seq_length; reflexivity).
  assert (En : nexts ((reads 0, List.length a) :: map (fun x => (reads (S x), 0)) (seq 0 k)) = Next (reads 0) (List.length a) :: map (fun r => Next r 0) ops).
  { unfold nexts, ops. cbn [map fst snd]. f_equal. rewrite !map_map. reflexivity. }
  rewrite En. cbn [app]. destruct a as [|[w sep] a']; [cbn in Hk; lia|]. set (a := (w, sep) :: a') in *.
  assert (Hf' : feasible a a' (List.length a) (map (fun r => Next r 0) ops ++ SeekTo i :: nexts readings)).
  { apply feasible_buffered; [rewrite Hlen; cbn in Hk; lia|exact Hops|lia|]. rewrite Hlen. split; [exact Hi|exact Hf]. }
  rewrite C89_any_history; try assumption.
  - cbn [expected app skipn Nat.add]. rewrite firstn_all. unfold a at 1. rewrite expected_buffered by (rewrite Hlen; cbn in Hk; lia). rewrite Hlen.
    cbn [expected]. rewrite expected_nexts by exact Hf.
    change (skipn (S k) a) with (skipn k a'). cbn [seq map]. unfold ops. rewrite <- (seq_shift k 0), map_map.
    change (in_order (firstn (S k) a) (reads 0 :: map (fun x => reads (S x)) (seq 0 k))) with
      (handing w (reads 0) :: in_order (firstn k a') (map (fun x => reads (S x)) (seq 0 k))).
    rewrite <- in_order_firstn. reflexivity.
  - split; [apply Hr|]. split; [cbn [Nat.add]; lia|]. cbn [skipn app Nat.add]. rewrite firstn_all. unfold a at 2. exact Hf'.
Qed.
(** When the end has been reported everything taken in has been handed out: a seek works again. *)
Theorem C89_seek_after_the_end : forall (deflate gunzip : bytes -> bytes) (a : archive) (strict : bool) (i : nat) (before after : list (list cop * nat)),
  gzip_pair deflate gunzip -> archive_ok a -> i <= List.length a ->
  List.length before = S (List.length a) -> feasible a [] 0 (nexts before) -> feasible a [] i (nexts after) ->
  fst (g_run gunzip (g_open gunzip (mkfile (packed deflate a) 0 strict) PWarc) (as_made deflate a 0 (nexts before ++ SeekTo i :: nexts after))) =
    in_order a (map fst before) ++ GMoved :: in_order (skipn i a) (map fst after).
Proof.
  intros deflate gunzip a strict i before after Hgz Hok Hi Hl Hb Ha.
  assert (G : forall readings q j, feasible a q j (nexts readings) -> List.length (q ++ skipn j a) < List.length readings ->
    feasible a q j (nexts readings ++ SeekTo i :: nexts after) /\
    expected a q j (nexts readings ++ SeekTo i :: nexts after) = in_order (q ++ skipn j a) (map fst readings) ++ GMoved :: in_order (skipn i a) (map fst after)).
  { induction readings as [|[r t] readings IH]; intros q j Hf Hlen; [cbn in Hlen; lia|]. cbn [nexts map fst snd feasible expected in_order app] in *.
    destruct Hf as (Hr & Ht & Hf). change (map (fun x => Next (fst x) (snd x)) readings) with (nexts readings) in *.
    assert (E : q ++ skipn j a = (q ++ firstn t (skipn j a)) ++ skipn (j + t) a) by (rewrite <- app_assoc, <- skip_skip, firstn_skipn; reflexivity).
    rewrite E in Hlen |- *. destruct (q ++ firstn t (skipn j a)) as [|[w sep] q'] eqn:Eq.
    - destruct Hf as (Hend & Hf). rewrite Hend, skipn_all in *. cbn [app] in *. destruct readings as [|x readings].
      + cbn [nexts map app feasible expected in_order fst]. split; [repeat split; auto|]. rewrite expected_nexts by exact Ha. reflexivity.
      + destruct (IH [] (List.length a) Hf) as [I1 I2]; [rewrite skipn_all; cbn; lia|]. rewrite skipn_all in I2. cbn [app] in I2.
        split; [split; [exact Hr|]; split; [lia|]; split; [reflexivity|exact I1]|].
        etransitivity; [apply (f_equal (cons ending) I2)|reflexivity].
    - cbn [app List.length] in Hlen. destruct (IH q' (j + t) Hf) as [I1 I2]; [lia|]. split; [repeat split; auto|]. rewrite I2. reflexivity. }
  destruct (G before [] 0 Hb) as [G1 G2]; [cbn [app skipn]; lia|]. rewrite C89_any_history; assumption.
Qed.

(** ** Seeking anywhere, whatever the decompressor took in *)
(** Decompressing whole members followed by anything gives the contents of the members first. *)
Definition gzip_front (deflate gunzip : bytes -> bytes) : Prop :=
  forall ds junk, exists x, gunzip (concat (map deflate ds) ++ junk) = concat ds ++ x.
(** Records are handed out as if nobody had called seek. *)
Fixpoint heedless (l : archive) (calls : list (gcall * nat)) : list ganswer :=
  match calls with
  | [] => []
  | (GNext reads, _) :: rest => match l with (w, _) :: l' => handing w reads :: heedless l' rest | [] => [] end
  | (GSeek _, _) :: rest => GMoved :: heedless l rest
  end.
Definition asks (c : gcall * nat) : bool := match c with (GNext _, _) => true | _ => false end.
Definition call_ok (c : gcall * nat) : Prop :=
  match c with (GNext reads, _) => Forall limit_ok reads | (GSeek offset, _) => (0 <= offset)%Z end.

Section Front.
  Variables (deflate gunzip : bytes -> bytes).
  Hypothesis Hgz : gzip_front deflate gunzip.
  Lemma front_packed h junk : exists x, gunzip (packed deflate h ++ junk) = archive_text h ++ x.
  Proof.
    unfold packed, archive_text. rewrite <- (map_map (fun p => wrec_text (fst p) ++ snd p) deflate).
    apply Hgz.
  Qed.
  Lemma read_one st start w sep x b : at_text st start (wrec_text w ++ sep ++ x) -> s_parser st = PWarc -> s_kind st <> SGzipFile -> wrec_ok w -> exists st1,
    read_record st b = (Ret (item_offset (s_kind st) b start, Some (handed w), []), st1) /\
    in_payload st1 (w_body w) (sep ++ x) /\ s_kind st1 = s_kind st /\ s_parser st1 = PWarc /\ pos st1 + List.length (w_body w) = start + List.length (wrec_text w).
  Proof.
    intros Hat Hp Hk Hw. destruct (at_text_fresh _ _ _ Hat) as (st0 & Heq & He & Hr & Hpos & Hk0 & Hp0 & Hf0).
    rewrite Heq. rewrite Hp in Hp0. rewrite <- Hk0 in Hk.
    destruct (read_wrec st0 b w _ He Hp0 Hk Hw Hr) as [E Hi]. rewrite E, Hk0, Hpos.
    eexists. split; [reflexivity|]. split; [exact Hi|]. split; [exact Hk0|]. split; [exact Hp0|].
    change (pos (moved st0 ?n ?e)) with (pos (adv st0 n)). rewrite pos_adv, Hpos. unfold wrec_text. rewrite app_length. lia.
  Qed.
  Definition front (g : gzs) (q : archive) : Prop :=
    exists h junk x start, g_seen g = packed deflate h ++ junk /\ f_data (s_fh (g_st g)) = archive_text h ++ x /\
      at_text (g_st g) start (archive_text q ++ x) /\ start + List.length (archive_text q) = List.length (archive_text h) /\
      s_kind (g_st g) = SGzipRecord /\ s_parser (g_st g) = PWarc /\ archive_ok q.
  Lemma front_take g q n : front g q -> front (g_take g n) q.
  Proof.
    intros (h & junk & x & start & Hs & Hr). exists h, (junk ++ firstn n (f_rest (g_raw g))), x, start. unfold g_take. cbn [g_seen g_st]. rewrite Hs, <- app_assoc. split; [reflexivity|exact Hr].
  Qed.
  Lemma front_seek g q offset : front g q -> (0 <= offset)%Z -> exists g', g_seek gunzip g offset = (GMoved, g') /\ front g' q.
  Proof.
    intros (h & junk & x & start & Hs & Hd & Hat & Hl & Hk & Hp & Hq) Ho. unfold g_seek, f_seek.
    assert (E : (offset <? 0)%Z = false) by lia. rewrite E. eexists. split; [reflexivity|].
    set (f := mkfile _ _ _). destruct (front_packed h (junk ++ f_rest f)) as [x' Ex].
    exists h, junk, x', start. cbn [g_seen g_st set_fh s_fh f_data s_kind s_parser]. rewrite Hs, <- app_assoc, Ex.
    do 2 (split; [reflexivity|]). split; [|repeat split; assumption].
    destruct Hat as [(He & sep & Hrest & Hsep & Hpos)|(left & sep & (He & Hrest) & Hsep & Hpos)].
    - left. split; [exact He|]. exists sep. split; [|split; [exact Hsep|exact Hpos]].
      unfold rest, f_rest, set_fh in *. cbn [s_fh f_pos f_data]. rewrite Hd in Hrest. rewrite app_assoc in *. eapply tail_swap; [|exact Hrest].
      unfold pos, f_tell in Hpos. lia.
    - right. exists left, sep. split; [split; [exact He|]|split; [exact Hsep|exact Hpos]].
      unfold rest, f_rest, set_fh in *. cbn [s_fh f_pos f_data]. rewrite Hd in Hrest. rewrite !app_assoc in *. eapply tail_swap; [|exact Hrest].
      unfold pos, f_tell in Hpos. lia.
  Qed.
  Lemma front_next g w sep q reads : front g ((w, sep) :: q) -> Forall limit_ok reads -> exists g', g_next g reads = (handing w reads, g') /\ front g' q.
  Proof.
    intros (h & junk & x & start & Hs & Hd & Hat & Hl & Hk & Hp & Hq) Hrd. inversion Hq as [|? ? [Hw Hsep] Hq']; subst. cbn [fst snd app] in *.
    rewrite archive_text_cons in Hat, Hl. rewrite <- !app_assoc in Hat.
    destruct (read_one _ start w sep (archive_text q ++ x) true Hat Hp) as (st1 & E & Hi & Hk1 & Hp1 & Hpos1); [rewrite Hk; discriminate|exact Hw|].
    pose proof (read_record_later (g_st g) true) as [L1 _]. rewrite E in L1. cbn [snd] in L1. unfold g_next. rewrite E.
    destruct (run_cops_pieces st1 _ _ reads Hi Hrd) as (st2 & E2 & Hus2). rewrite E2.
    pose proof (later_cops reads st1) as L2. rewrite E2 in L2. cbn [snd] in L2.
    destruct (used_payload _ _ _ _ Hi Hus2) as (l & _ & Hp2 & Hk2 & _).
    eexists. split; [rewrite Hk; reflexivity|]. exists h, junk, x, (start + List.length (wrec_text w) + List.length sep). cbn [g_raw g_seen g_st].
    split; [exact Hs|]. destruct L1 as [L1 _]. destruct L2 as [L2 _]. split; [congruence|].
    split; [apply (at_text_next st1 (w_body w) st2 sep); try assumption; lia|].
    split; [rewrite !app_length in Hl; lia|]. split; [congruence|]. split; [congruence|exact Hq'].
  Qed.
  Lemma front_run : forall calls g q, front g q -> Forall call_ok calls -> List.length (filter asks calls) <= List.length q ->
    fst (g_run gunzip g calls) = heedless q calls.
  Proof.
    induction calls as [|[[reads|offset] n] calls IH]; intros g q Hg Hc Hl; [reflexivity| |]; inversion Hc as [|? ? Hc1 Hc2]; subst; cbn [g_run g_call filter asks heedless call_ok] in *.
    - destruct q as [|[w sep] q]; [cbn in Hl; lia|]. destruct (front_next g w sep q reads Hg Hc1) as (g' & E & Hg'). rewrite E.
      specialize (IH (g_take g' n) q (front_take _ _ n Hg') Hc2 ltac:(cbn in Hl; lia)). destruct (g_run gunzip _ calls) as [xs g2]. cbn [fst] in *. rewrite IH. reflexivity.
    - destruct (front_seek g q offset Hg Hc1) as (g' & E & Hg'). rewrite E. specialize (IH g' q Hg' Hc2 Hl). destruct (g_run gunzip g' calls) as [xs g2]. cbn [fst] in *. rewrite IH. reflexivity.
  Qed.
End Front.
(** If the first call takes in at least the first [m] members, then the first [m] records are handed out
    in order, whatever seeks are made in between, to any places, and however much more is taken in. *)
Theorem C89_what_was_taken_in_comes_first : forall (deflate gunzip : bytes -> bytes) (a : archive) (strict : bool) (m n : nat) (reads : list cop) (calls : list (gcall * nat)),
  gzip_front deflate gunzip -> archive_ok a -> m <= List.length a -> place deflate a m <= n ->
  Forall call_ok ((GNext reads, n) :: calls) -> List.length (filter asks ((GNext reads, n) :: calls)) <= m ->
  fst (g_run gunzip (g_open gunzip (mkfile (packed deflate a) 0 strict) PWarc) ((GNext reads, n) :: calls)) = heedless a ((GNext reads, n) :: calls).
Proof.
  intros deflate gunzip a strict m n reads calls Hgz Hok Hm Hn Hc Hl. set (g := g_open _ _ _).
  assert (Hg : front deflate (g_take g n) (firstn m a)).
  { destruct (front_packed deflate gunzip Hgz (firstn m a) (packed deflate (skipn m a))) as [x Ex]. rewrite <- packed_app, firstn_skipn in Ex.
    exists (firstn m a), (firstn (n - place deflate a m) (packed deflate (skipn m a))), x, 0. unfold g, g_open, g_take, decompressed, f_rest.
    cbn [g_seen g_raw g_st new_stream s_fh f_data f_pos s_kind s_parser skipn app]. split.
    { rewrite <- (firstn_skipn m a) at 1. rewrite packed_app, firstn_app. unfold place in *. rewrite firstn_all2 by exact Hn. reflexivity. }
    split; [exact Ex|]. split; [|repeat split].
    - left. split; [reflexivity|]. exists []. split; [exact Ex|]. split; [split; [intros c []|left; reflexivity]|reflexivity].
    - unfold archive_ok in *. rewrite <- (firstn_skipn m a) in Hok. apply Forall_app in Hok. apply Hok. }
  inversion Hc as [|? ? Hc1 Hc2]; subst. cbn [call_ok filter asks List.length] in Hc1, Hl.
  destruct (firstn m a) as [|[w sep] q] eqn:Ef.
  { assert (E0 : List.length (firstn m a) = m) by (apply firstn_length_le; exact Hm). rewrite Ef in E0. cbn in E0. lia. }
  destruct (front_next deflate _ w sep q reads Hg Hc1) as (g' & E & Hg'). pose proof (next_then_take g reads n) as Hnt. rewrite E in Hnt.
  cbn [g_run g_call]. destruct (g_next g reads) as [x g1]. injection Hnt as <- ->.
  assert (El : List.length q = m - 1) by (assert (E0 : List.length (firstn m a) = m) by (apply firstn_length_le; exact Hm); rewrite Ef in E0; cbn in E0; lia).
  pose proof (front_run deflate gunzip Hgz calls (g_take g1 n) q Hg' Hc2 ltac:(lia)) as R. destruct (g_run gunzip (g_take g1 n) calls) as [xs g2]. cbn [fst] in *. rewrite R.
  assert (Ea : a = (w, sep) :: q ++ skipn m a) by (change ((w, sep) :: q ++ skipn m a) with (((w, sep) :: q) ++ skipn m a); rewrite <- Ef; symmetry; apply firstn_skipn).
  rewrite Ea. cbn [heedless]. f_equal.
  assert (G : forall cs l more, List.length (filter asks cs) <= List.length l -> heedless l cs = heedless (l ++ more) cs).
  { clear. induction cs as [|[[r|o] n] cs IH]; intros l more H; [reflexivity| |]; cbn [filter asks List.length heedless] in *; [destruct l as [|[w s] l]; [cbn in H; lia|]; cbn [app]; f_equal; apply IH; cbn in H; lia|f_equal; apply IH, H]. }
  apply G. lia.
Qed.
Lemma toy_front : gzip_front toy_deflate toy_gunzip.
Proof.
  assert (T : forall d y, toy_gunzip (toy_deflate d ++ y) = d ++ toy_gunzip y).
  { intros d y. etransitivity; [|apply (toy_body d y)]. unfold toy_deflate. cbn [app toy_gunzip]. f_equal. exact (eq_sym (app_assoc _ [0%N] y)). }
  intros ds junk. exists (toy_gunzip junk). induction ds as [|d ds IH]; [reflexivity|]. cbn [map concat].
  etransitivity; [apply (f_equal toy_gunzip (eq_sym (app_assoc _ _ _)))|]. etransitivity; [apply T|].
  etransitivity; [apply (f_equal (app d) IH)|]. apply app_assoc.
Qed.

(** ** non-trivial cases *)
Example C89_case : archive_ok sample_archive_ok /\ List.length sample_archive_ok = 3 /\
  let readings := [([], 0); ([OpRead (Some 1%Z)], 0); ([], 3); ([], 0); ([OpReadline None], 0); ([], 0)] in
  feasible sample_archive_ok (skipn 1 sample_archive_ok) 0 (nexts readings) /\
  in_order (skipn 1 sample_archive_ok ++ skipn 0 sample_archive_ok) (map fst readings) <> in_order (skipn 0 sample_archive_ok) (map fst readings).
Proof.
  split; [apply archive_okb_sound; vm_compute; reflexivity|]. split; [reflexivity|]. cbn zeta. split; [|vm_compute; congruence].
  vm_compute. repeat (split || constructor || lia || discriminate).
Qed.
Example C89_front_case : exists n calls, archive_ok sample_archive_ok /\ place toy_deflate sample_archive_ok 2 <= n /\ n < place toy_deflate sample_archive_ok 3 /\
  Forall call_ok ((GNext [], n) :: calls) /\ List.length (filter asks ((GNext [], n) :: calls)) <= 2 /\
  exists x y, heedless sample_archive_ok ((GNext [], n) :: calls) = [x; GMoved; y].
Proof.
  exists (place toy_deflate sample_archive_ok 2 + 5), [(GSeek 7%Z, 0); (GNext [OpRead None], 3)].
  split; [apply archive_okb_sound; vm_compute; reflexivity|]. split; [lia|]. split; [vm_compute; lia|].
  split; [repeat constructor; cbn; lia|]. split; [cbn; lia|]. do 2 eexists. reflexivity.
Qed.
