(** C66: readinto *)
From Verif Require Export Into PropsRead Checks PropsCut.
From Coq Require Import String List Lia ZArith.
Open Scope list_scope.

Definition same_kind (b c : buffer) : Prop :=
  match b, c with Bytearray _, Bytearray _ | Memoryview _, Memoryview _ => True | _, _ => False end.

(** Inside a record's payload, of which [unread] is left: the start of the buffer is
    overwritten with as much of it as fits, the rest of the buffer and its size are kept, and
    the stream is where read(len(b)) would have left it. *)
Theorem C66_readinto : forall (st : stream) (unread after : bytes) (b : buffer), in_payload st unread after ->
  let old := buffer_bytes b in
  let k := Nat.min (List.length old) (List.length unread) in
  exists b' st', readinto st b = (Ret k, b', st') /\ same_kind b b' /\
    buffer_bytes b' = firstn k unread ++ skipn k old /\ List.length (buffer_bytes b') = List.length old /\
    in_payload st' (skipn k unread) after /\ stream_read st (Some (Z.of_nat (List.length old))) = (Ret (firstn k unread), st').
Proof.
  intros st unread after b Hi old k.
  assert (Hn : cop_nonneg (OpRead (Some (Z.of_nat (List.length old))))) by (cbn; lia).
  assert (Ek : cop_result (OpRead (Some (Z.of_nat (List.length old)))) unread = firstn k unread).
  { cbn [cop_result]. rewrite Nat2Z.id. unfold k. destruct (Nat.le_gt_cases (List.length old) (List.length unread)); [rewrite Nat.min_l by assumption; reflexivity|].
    rewrite Nat.min_r, !firstn_all2 by lia. reflexivity. }
  assert (El : List.length (firstn k unread) = k) by (rewrite firstn_length_le; unfold k; lia).
  pose proof (run_cop_ok st unread after _ Hi Hn) as E. rewrite Ek in E. cbn [run_cop] in E.
  assert (Hk : in_payload (snd (run_cop st (OpRead (Some (Z.of_nat (List.length old)))))) (skipn k unread) after).
  { apply (run_cop_keeps _ _ _ _ _ Hi Hn). rewrite Ek. symmetry. apply firstn_skipn. }
  cbn [run_cop] in Hk. rewrite E in Hk. cbn [snd] in Hk. 
  unfold readinto. fold old. rewrite E. rewrite El in *.
  match type of Hk with in_payload ?s _ _ => set (st' := s) in * end. clearbody st'.
  assert (Hlen : List.length (firstn k unread ++ skipn k old) = List.length old) by (rewrite app_length, El, skipn_length; unfold k; lia).
  destruct b as [x|x]; cbn [assign_prefix buffer_bytes] in *; subst old.
  - rewrite El. do 2 eexists. repeat split; try reflexivity; try assumption. apply Hk. apply Hk.
  - rewrite El. destruct (Nat.leb_spec k (List.length x)) as [H|H]; [|unfold k in H; lia].
    do 2 eexists. repeat split; try reflexivity; try assumption. apply Hk. apply Hk.
Qed.

(** Any mixture of read, readline and readinto gives consecutive pieces of the payload: those
    C04 describes, a readinto counting as a read of the buffer's size. *)
Definition as_read (c : ccall) : cop :=
  match c with Plain o => o | Into b => OpRead (Some (Z.of_nat (List.length (buffer_bytes b)))) end.
Definition call_ok (c : ccall) : Prop := match c with Plain o => limit_ok o | Into _ => True end.
Lemma run_call_as_read st unread after c : in_payload st unread after -> call_ok c -> run_call st c = run_cop st (as_read c).
Proof.
  intros Hi Hc. destruct c as [o|b]; [reflexivity|]. cbn [run_call as_read run_cop].
  destruct (C66_readinto st unread after b Hi) as (b' & st' & E & _ & Eb & _ & _ & Er). cbv zeta in *. rewrite E, Er, Eb. do 2 f_equal.
  rewrite firstn_app, firstn_firstn, Nat.min_id, firstn_length_le by lia. rewrite Nat.sub_diag. cbn [firstn]. apply app_nil_r.
Qed.
Theorem C66_mixed_calls : forall (cs : list ccall) (st : stream) (unread after : bytes), in_payload st unread after -> Forall call_ok cs ->
  run_calls st cs = run_cops st (map as_read cs) /\ fst (run_calls st cs) = Ret (pieces (map as_read cs) unread).
Proof.
  intros cs st unread after Hi Hc.
  assert (E : run_calls st cs = run_cops st (map as_read cs)).
  { revert st unread Hi. induction Hc as [|c cs Hc _ IH]; intros st unread Hi; [reflexivity|]. cbn [run_calls map run_cops].
    rewrite (run_call_as_read st unread after c Hi Hc).
    assert (Hn : cop_nonneg (as_read c)) by (destruct c as [o|b]; [apply limit_ok_nonneg; exact Hc|cbn; lia]).
    destruct (cop_result_prefix (as_read c) unread) as [l El]. pose proof (run_cop_keeps _ _ _ _ _ Hi Hn El) as Hk.
    rewrite (run_cop_ok _ _ _ _ Hi Hn) in *. cbn [snd] in Hk. rewrite (IH _ _ Hk). reflexivity. }
  split; [exact E|]. rewrite E.
  assert (Ho : Forall limit_ok (map as_read cs)) by 
    (clear - Hc; induction Hc as [|c cs Hc _ IH]; [constructor|]; cbn [map]; constructor; [destruct c as [o|b]; [exact Hc|cbn; lia]|exact IH]).
  destruct (run_cops_pieces st unread after _ Hi Ho) as (st' & -> & _). reflexivity.
Qed.

(** Draining with one buffer of any size but zero gives the payload, all of it and nothing else. *)
Theorem C66_draining : forall (b : buffer) (st : stream) (unread after : bytes) (fuel : nat), in_payload st unread after ->
  buffer_bytes b <> [] -> List.length unread < fuel ->
  exists st', drain fuel st b [] = (Ret unread, st') /\ in_payload st' [] after.
Proof.
  assert (G : forall fuel b st unread after out, in_payload st unread after -> buffer_bytes b <> [] -> List.length unread < fuel ->
    exists st', drain fuel st b out = (Ret (out ++ unread), st') /\ in_payload st' [] after).
  { induction fuel as [|fuel IH]; intros b st unread after out Hi Hb Hl; [lia|]. cbn [drain].
    destruct (C66_readinto st unread after b Hi) as (b' & st' & E & _ & Eb & El & Hi' & _). cbv zeta in *. rewrite E.
    set (k := Nat.min (List.length (buffer_bytes b)) (List.length unread)) in *.
    assert (Hpos : 0 < List.length (buffer_bytes b)) by (destruct (buffer_bytes b); [congruence|cbn; lia]).
    destruct k as [|k'] eqn:Ek.
    - assert (unread = []) as -> by (destruct unread; [reflexivity|cbn in *; lia]). exists st'. rewrite app_nil_r. split; [reflexivity|exact Hi'].
    - rewrite <- Ek in *. assert (Hk : k <= List.length unread) by (unfold k; lia).
      destruct (IH b' st' (skipn k unread) after (out ++ firstn k (buffer_bytes b')) Hi') as (s2 & E2 & H2).
      + intro X. rewrite X in El. cbn in El. lia.
      + rewrite skipn_length. lia.
      + exists s2. rewrite E2. split; [|exact H2]. do 2 f_equal.
        assert (Ef : firstn k (buffer_bytes b') = firstn k unread).
        { rewrite Eb, firstn_app, firstn_firstn, Nat.min_id, firstn_length_le by exact Hk. rewrite Nat.sub_diag. cbn [firstn]. apply app_nil_r. }
        rewrite Ef, <- app_assoc, firstn_skipn. reflexivity. }
  intros b st unread after fuel Hi Hb Hl. destruct (G fuel b st unread after [] Hi Hb Hl) as (st' & E & H). exists st'. split; [exact E|exact H].
Qed.

(** After a record that announces Content-Length -1, readinto takes the rest of the file,
    whatever the buffer: a bytearray grows to hold all of it, a memoryview raises
    ValueError - with the rest of the file read and lost in both cases. *)
Theorem C66_length_minus_one : forall (st : stream) (x : bytes), s_eoc st = Some (-1)%Z ->
  exists st', rest st' = [] /\
    readinto st (Bytearray x) = (Ret (List.length (rest st)), Bytearray (rest st ++ skipn (List.length (rest st)) x), st') /\
    (List.length x < List.length (rest st) -> readinto st (Memoryview x) = (Raise EValueError, Memoryview x, st')).
Proof.
  intros st x He.
  assert (E : forall n : nat, stream_read st (Some (Z.of_nat n)) = raw_read st (Some (-1)%Z)) by (intro n; unfold stream_read, bounded; rewrite He, Z.min_r by lia; reflexivity).
  unfold readinto. rewrite !E. cbn [raw_read]. unfold f_read. cbn [Z.ltb Z.compare Z.eqb]. unfold f_read_all. cbn [andb orb negb buffer_bytes].
  change (f_rest (s_fh st)) with (rest st).
  eexists. split; [|split].
  2:{ cbn [assign_prefix]. reflexivity. }
  - unfold count_down. change (rest (set_eoc ?s ?e)) with (rest s). change (set_fh st (f_advance (s_fh st) ?n)) with (adv st n). rewrite rest_adv. apply skipn_all.
  - intro H. cbn [assign_prefix]. cbn [Pos.eqb orb]. destruct (Nat.leb_spec (List.length (rest st)) (List.length x)); [lia|]. reflexivity.
Qed.
(** such a stream is what the reader leaves behind after the headers *)
Example C66_case :
  let st0 := new_stream SPlain (mkfile (B "WARC/1.0" ++ CRLF ++ B "Content-Length: -1" ++ CRLF ++ CRLF ++ B "body") 0 true) PWarc in
  s_eoc (snd (read_record st0 true)) = Some (-1)%Z /\ rest (snd (read_record st0 true)) = B "body".
Proof. vm_compute. split; reflexivity. Qed.
Example C66_case2 : in_payload (snd (read_record (new_stream SPlain (mkfile (archive_text [(cut_sample, terminator)]) 0 true) PWarc) true)) (w_body cut_sample) terminator
  /\ w_body cut_sample <> [].
Proof. vm_compute. repeat split; discriminate. Qed.
