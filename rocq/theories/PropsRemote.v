(** C95: archives named by an s3:// URL. *)
From Verif Require Import PropsTextMode PropsS3 PropsIndex PropsCli.
From Verif Require Export Remote.
From Coq Require Import String List Lia ZArith.
Open Scope list_scope.

(** ** Specification *)
(** the exception that ends every attempt to read the first record, given what the service wrote into the handle *)
Definition some_bytes (pieces : list pystr) : Prop := exists b, In (PBytes b) pieces.
Definition all_empty (pieces : list pystr) : Prop := forall x, In x pieces -> x = PText [].
Inductive trouble (url : bytes) (pieces : list pystr) : exn -> Prop :=
| Bytes : some_bytes pieces -> trouble url pieces ETypeError                       (* StringIO.write(bytes) *)
| NotGzip : ~ some_bytes pieces -> endswith (B ".gz") url = true -> trouble url pieces EOSError
| NoSeek : ~ some_bytes pieces -> endswith (B ".gz") url = false -> ~ all_empty pieces -> trouble url pieces EOSError
| Nothing_ : all_empty pieces -> endswith (B ".gz") url = false -> trouble url pieces ETypeError.   (* a pattern over bytes on a text *)
(** what a service of this kind does: it answers or raises, it does not hang *)
Definition responsive (answer : request -> outcome (list pystr)) : Prop := forall rq, answer rq <> Diverge.

(** ** Lemmas *)
Lemma written_cases pieces : forall s,
  (some_bytes pieces /\ written s pieces = Raise ETypeError) \/
  (~ some_bytes pieces /\ exists s', written s pieces = Ret s').
Proof.
  induction pieces as [|x t IH]; intro s; [right; split; [intros [b []]|exists s; reflexivity]|].
  destruct x as [b|u]; [left; split; [exists b; left; reflexivity|reflexivity]|].
  cbn [written io_write bind]. match goal with |- context [written ?s1 t] => destruct (IH s1) as [[[b Hb] E]|[Hn [s' E]]] end.
  - left. split; [exists b; right; exact Hb|exact E].
  - right. split; [intros [b [Hb|Hb]]; [discriminate|apply Hn; exists b; exact Hb]|exists s'; exact E].
Qed.
Lemma written_text pieces : forall t0 s', written (t0, List.length t0) pieces = Ret s' -> (fst s' = [] <-> t0 = [] /\ all_empty pieces) /\ snd s' = List.length (fst s').
Proof.
  induction pieces as [|x t IH]; intros t0 s' E.
  - cbn in E. injection E as <-. cbn. split; [split; [intro H; split; [exact H|intros y []]|tauto]|reflexivity].
  - destruct x as [b|u]; [discriminate|]. cbn [written io_write bind fst snd] in E. rewrite firstn_all, skipn_all2, app_nil_r, <- app_length in E by lia.
    destruct (IH _ _ E) as [H1 H2]. split; [|exact H2]. rewrite H1. split.
    + intros [Ha Hb]. apply app_eq_nil in Ha as [-> ->]. split; [reflexivity|]. intros y [<-|Hy]; [reflexivity|exact (Hb y Hy)].
    + intros [-> Hb]. assert (Hu : PText u = PText []) by (apply Hb; left; reflexivity). injection Hu as ->. split; [reflexivity|]. intros y Hy. apply Hb. right. exact Hy.
Qed.
Lemma py_is_text t b : py_is (PText t) b = false. Proof. reflexivity. Qed.
Lemma gz_raises inflate s : exists s', gz_readline inflate s = (Raise EOSError, s').
Proof. unfold gz_readline, io_read. cbn [andthen]. rewrite !py_is_text. eexists. reflexivity. Qed.
Lemma io_text : text_mode io_handle.
Proof.
  split; [intros s x s' E; cbn in E; unfold io_readline in E; injection E as <- _; eexists; reflexivity|].
  intros n s x s' E. cbn in E. unfold io_read in E. injection E as <- _. eexists. reflexivity.
Qed.
Lemma reads_text inflate k : text_mode (reads_from inflate k).
Proof.
  destruct k; [exact io_text| |]; (split; [intros s x s' E|intros n s x s' E]; cbn [reads_from h_readline h_read] in E; destruct (gz_raises inflate s) as [s2 X]; rewrite X in E; discriminate).
Qed.
Lemma io_refuses : refuses_step_back io_handle EOSError.
Proof. intros n s H. cbn. unfold io_seek_cur. rewrite (proj2 (Z.eqb_neq n 0) H). reflexivity. Qed.
(** what is open after a successful opening with gzip="auto" *)
Lemma opened answer inflate url o l pieces (c : aclass) : c <> AArchive -> answer (url_request url o l) = Ret pieces ->
  (some_bytes pieces /\ remote_stream answer inflate c GAuto url o l = Raise ETypeError) \/
  (~ some_bytes pieces /\ endswith (B ".gz") url = true /\ exists t, remote_stream answer inflate c GAuto url o l = Ret (SGzipRecord, (t, 0))) \/
  (~ some_bytes pieces /\ endswith (B ".gz") url = false /\ ~ all_empty pieces /\ remote_stream answer inflate c GAuto url o l = Raise EOSError) \/
  (all_empty pieces /\ endswith (B ".gz") url = false /\ remote_stream answer inflate c GAuto url o l = Ret (SPlain, ([], 0))).
Proof.
  intros Hc Ha. unfold remote_stream, open_remote. rewrite Ha. cbn [bind].
  destruct (written_cases pieces ([], 0)) as [[Hb E]|[Hb [s' E]]]; rewrite E; cbn [bind]; [left; split; [exact Hb|reflexivity]|right].
  destruct (endswith (B ".gz") url) eqn:Eg.
  - left. split; [exact Hb|split; [reflexivity|]]. exists (fst s'). destruct c; [congruence| | |]; reflexivity.
  - right. destruct (written_text pieces [] s' E) as [[H1 H1'] H2]. destruct (fst s') as [|x t] eqn:Ef.
    + right. destruct (H1 eq_refl) as [_ He]. split; [exact He|split; [reflexivity|]]. destruct c; [congruence| | |]; reflexivity.
    + left. split; [exact Hb|split; [reflexivity|]]. split; [intro X; specialize (H1' (conj eq_refl X)); discriminate|].
      assert (R : forall z, fst (h_open io_handle (gz_readline inflate) c false GAuto (x :: t, 0)) <> Ret z /\ fst (h_open io_handle (gz_readline inflate) c false GAuto (x :: t, 0)) = Raise EOSError).
      { intro z. pose proof (C72_text_handle_auto io_handle (gz_readline inflate) c (x :: t, 0) (x :: t, 0 + List.length (firstn 2 (x :: t))) (firstn 2 (x :: t)) EOSError io_refuses Hc eq_refl ltac:(discriminate)) as X.
        rewrite X. split; [discriminate|reflexivity]. }
      destruct (h_open io_handle (gz_readline inflate) c false GAuto (x :: t, 0)) as [[[p k]|e|] s2]; destruct (R (PWarc, SPlain)) as [R1 R2]; cbn [fst] in R2; [discriminate| |discriminate].
      injection R2 as ->. reflexivity.
Qed.

(** ** C95 *)
(** *** no record comes from an s3:// name *)
Theorem C95_no_record : forall answer inflate skip parse c gz url o l offsets lines it,
  remote_first answer inflate skip parse c gz url o l offsets lines <> Ret it.
Proof.
  intros answer inflate skip parse c gz url o l offsets lines it E. unfold remote_first in E.
  destruct (remote_stream answer inflate c gz url o l) as [[k s]|e|]; try discriminate. cbn [bind fst snd] in E.
  destruct lines as [|lines]; [unfold h_read_record in E; cbn in E; discriminate|]. pose proof (reads_text inflate k) as T. destruct offsets.
  - rewrite (C72_text_handle_read_offsets _ skip parse lines s T) in E.
    destruct (h_tell (reads_from inflate k) s) as [[n|e|] s1]; cbn [fst] in E; try discriminate.
    destruct (h_readline (reads_from inflate k) s1) as [[x|e|] s2]; discriminate.
  - rewrite (text_read_record _ skip parse lines s T) in E. destruct (h_readline (reads_from inflate k) s) as [[x|e|] s2]; discriminate.
Qed.
(** *** reading the first record raises, and what *)
Lemma gz_first_raises inflate skip parse lines (offsets : bool) s :
  fst (h_read_record (reads_from inflate SGzipRecord) skip parse (Datatypes.S lines) offsets (None, s)) = Raise EOSError.
Proof.
  destruct offsets.
  - rewrite (C72_text_handle_read_offsets _ skip parse lines s (reads_text inflate SGzipRecord)). cbn [reads_from h_tell h_readline]. destruct (gz_raises inflate s) as [s2 ->]. reflexivity.
  - rewrite (text_read_record _ skip parse lines s (reads_text inflate SGzipRecord)). cbn [reads_from h_tell h_readline]. destruct (gz_raises inflate s) as [s2 ->]. reflexivity.
Qed.
Lemma plain_first_raises inflate skip parse lines (offsets : bool) s :
  fst (h_read_record (reads_from inflate SPlain) skip parse (Datatypes.S lines) offsets (None, s)) = Raise ETypeError.
Proof.
  destruct offsets.
  - rewrite (C72_text_handle_read_offsets _ skip parse lines s (reads_text inflate SPlain)). reflexivity.
  - rewrite (text_read_record _ skip parse lines s (reads_text inflate SPlain)). reflexivity.
Qed.
Theorem C95_first_read_raises : forall answer inflate skip parse c url o l offsets lines pieces, c <> AArchive ->
  answer (url_request url o l) = Ret pieces ->
  exists e, trouble url pieces e /\ remote_first answer inflate skip parse c GAuto url o l offsets (Datatypes.S lines) = Raise e.
Proof.
  intros answer inflate skip parse c url o l offsets lines pieces Hc Ha. unfold remote_first.
  destruct (opened answer inflate url o l pieces c Hc Ha) as [[H E]|[(H & G & t & E)|[(H & G & N & E)|(H & G & E)]]]; rewrite E; cbn [bind fst snd].
  - exists ETypeError. split; [apply Bytes, H|reflexivity].
  - exists EOSError. split; [apply NotGzip; assumption|]. apply gz_first_raises.
  - exists EOSError. split; [apply NoSeek; assumption|reflexivity].
  - exists ETypeError. split; [apply Nothing_; assumption|]. apply plain_first_raises.
Qed.
Theorem C95_trouble_is_one : forall url pieces e1 e2, trouble url pieces e1 -> trouble url pieces e2 -> e1 = e2.
Proof.
  assert (X : forall pieces, some_bytes pieces -> all_empty pieces -> False) by (intros p [b Hb] H; specialize (H _ Hb); discriminate).
  intros url pieces e1 e2 H1 H2. destruct H1, H2; try reflexivity; try congruence; try contradiction; exfalso; eauto.
Qed.
(** *** the tools' loops: they write nothing and end with that exception *)
Definition raises_ {A} (url : bytes) (pieces : list pystr) (a : A) (x : outcome unit * A) : Prop :=
  exists e, trouble url pieces e /\ x = (Raise e, a).
Lemma first_fails (A : Type) inflate skip parse k s (a : A) e fuel lines (offsets : bool) :
  fst (h_read_record (reads_from inflate k) skip parse lines offsets (None, s)) = Raise e ->
  (forall limit body, limit <> Some 0 ->
     (match h_records (reads_from inflate k) skip parse (Datatypes.S fuel) lines limit offsets body a (None, s) with (o, a', _) => (o, a') end) = (Raise e, a)) /\
  (offsets = false -> forall body,
     (match h_iter (reads_from inflate k) skip parse (Datatypes.S fuel) lines body a (None, s) with (o, a', _) => (o, a') end) = (Raise e, a)).
Proof.
  intro E. split.
  - intros limit body Hl. destruct limit as [[|n]|]; [congruence| |]; cbn [h_records]; destruct (h_read_record (reads_from inflate k) skip parse lines offsets (None, s)) as [o s2];
      cbn [fst] in E; rewrite E; reflexivity.
  - intros -> body. cbn [h_iter]. destruct (h_read_record (reads_from inflate k) skip parse lines false (None, s)) as [o s2]; cbn [fst] in E; rewrite E; reflexivity.
Qed.
Theorem C95_tools_raise : forall {A} answer inflate skip parse fuel lines url o l pieces (a : A),
  answer (url_request url o l) = Ret pieces ->
  (forall limit offsets body, limit <> Some 0 ->
     raises_ url pieces a (remote_records answer inflate skip parse (Datatypes.S fuel) (Datatypes.S lines) limit offsets body url o l a)) /\
  (o = None -> l = None -> forall body,
     raises_ url pieces a (remote_iter answer inflate skip parse (Datatypes.S fuel) (Datatypes.S lines) body url a)) /\
  (o = None -> l = None -> forall body at_, (0 <= at_)%Z ->
     raises_ url pieces a (remote_extract answer inflate skip parse (Datatypes.S fuel) (Datatypes.S lines) body url at_ a)).
Proof.
  intros A answer inflate skip parse fuel lines url o l pieces a Ha.
  destruct (opened answer inflate url o l pieces AWarc ltac:(discriminate) Ha) as [[H E]|[(H & G & t & E)|[(H & G & N & E)|(H & G & E)]]].
  - split; [|split].
    + intros limit offsets body Hl. exists ETypeError. split; [apply Bytes, H|]. unfold remote_records. rewrite E. reflexivity.
    + intros -> -> body. exists ETypeError. split; [apply Bytes, H|]. unfold remote_iter. rewrite E. reflexivity.
    + intros -> -> body at_ _. exists ETypeError. split; [apply Bytes, H|]. unfold remote_extract. rewrite E. reflexivity.
  - split; [|split].
    + intros limit offsets body Hl. exists EOSError. split; [apply NotGzip; assumption|]. unfold remote_records. rewrite E.
      apply (first_fails A inflate skip parse SGzipRecord (t, 0) a EOSError fuel (Datatypes.S lines) offsets (gz_first_raises inflate skip parse lines offsets (t, 0))), Hl.
    + intros -> -> body. exists EOSError. split; [apply NotGzip; assumption|]. unfold remote_iter. rewrite E.
      apply (first_fails A inflate skip parse SGzipRecord (t, 0) a EOSError fuel (Datatypes.S lines) false (gz_first_raises inflate skip parse lines false (t, 0))); reflexivity.
    + intros -> -> body at_ Hat. exists EOSError. split; [apply NotGzip; assumption|]. unfold remote_extract. rewrite E. unfold io_seek. rewrite (proj2 (Z.ltb_ge at_ 0) Hat).
      apply (first_fails A inflate skip parse SGzipRecord _ a EOSError fuel (Datatypes.S lines) false (gz_first_raises inflate skip parse lines false _)). discriminate.
  - split; [|split].
    + intros limit offsets body Hl. exists EOSError. split; [apply NoSeek; assumption|]. unfold remote_records. rewrite E. reflexivity.
    + intros -> -> body. exists EOSError. split; [apply NoSeek; assumption|]. unfold remote_iter. rewrite E. reflexivity.
    + intros -> -> body at_ _. exists EOSError. split; [apply NoSeek; assumption|]. unfold remote_extract. rewrite E. reflexivity.
  - split; [|split].
    + intros limit offsets body Hl. exists ETypeError. split; [apply Nothing_; assumption|]. unfold remote_records. rewrite E.
      apply (first_fails A inflate skip parse SPlain ([], 0) a ETypeError fuel (Datatypes.S lines) offsets (plain_first_raises inflate skip parse lines offsets ([], 0))), Hl.
    + intros -> -> body. exists ETypeError. split; [apply Nothing_; assumption|]. unfold remote_iter. rewrite E.
      apply (first_fails A inflate skip parse SPlain ([], 0) a ETypeError fuel (Datatypes.S lines) false (plain_first_raises inflate skip parse lines false ([], 0))); reflexivity.
    + intros -> -> body at_ Hat. exists ETypeError. split; [apply Nothing_; assumption|]. unfold remote_extract. rewrite E. unfold io_seek. rewrite (proj2 (Z.ltb_ge at_ 0) Hat).
      apply (first_fails A inflate skip parse SPlain _ a ETypeError fuel (Datatypes.S lines) false (plain_first_raises inflate skip parse lines false _)). discriminate.
Qed.
(** a service that does not hang: a tool never gets past an s3:// name and writes nothing for it *)
Definition failing {A} (remote : bytes -> A -> outcome unit * A) : Prop := forall url a, exists e, remote url a = (Raise e, a).
Theorem C95_remote_fails : forall {A} answer inflate skip parse fuel lines, responsive answer ->
  (forall limit offsets body o l, limit <> Some 0 ->
     failing (A := A) (fun url => remote_records answer inflate skip parse (Datatypes.S fuel) (Datatypes.S lines) limit offsets body url o l)) /\
  (forall body, failing (A := A) (remote_iter answer inflate skip parse (Datatypes.S fuel) (Datatypes.S lines) body)) /\
  (forall body at_, failing (A := A) (fun url => remote_extract answer inflate skip parse (Datatypes.S fuel) (Datatypes.S lines) body url at_)).
Proof.
  intros A answer inflate skip parse fuel lines Hr.
  split; [|split].
  - intros limit offsets body o l Hl url a. destruct (answer (url_request url o l)) as [pieces|e|] eqn:Ea; [| |destruct (Hr _ Ea)].
    + destruct (C95_tools_raise (A := A) answer inflate skip parse fuel lines url o l pieces a Ea) as [H _]. destruct (H limit offsets body Hl) as (e & _ & E). exists e. exact E.
    + exists e. unfold remote_records, remote_stream, open_remote. rewrite Ea. reflexivity.
  - intros body url a. destruct (answer (url_request url None None)) as [pieces|e|] eqn:Ea; [| |destruct (Hr _ Ea)].
    + destruct (C95_tools_raise (A := A) answer inflate skip parse fuel lines url None None pieces a Ea) as (_ & H & _). destruct (H eq_refl eq_refl body) as (e & _ & E). exists e. exact E.
    + exists e. unfold remote_iter, remote_stream, open_remote. rewrite Ea. reflexivity.
  - intros body at_ url a. destruct (answer (url_request url None None)) as [pieces|e|] eqn:Ea; [| |destruct (Hr _ Ea)].
    + destruct (Z.ltb_spec at_ 0) as [Hn|Hn].
      * unfold remote_extract. destruct (remote_stream answer inflate AWarc GAuto url None None) as [[k s]|e|] eqn:Es.
        -- unfold io_seek. rewrite (proj2 (Z.ltb_lt at_ 0) Hn). exists EValueError. reflexivity.
        -- exists e. reflexivity.
        -- exfalso. destruct (opened answer inflate url None None pieces AWarc ltac:(discriminate) Ea) as [[H E]|[(H & G & t & E)|[(H & G & N & E)|(H & G & E)]]]; rewrite E in Es; discriminate.
      * destruct (C95_tools_raise (A := A) answer inflate skip parse fuel lines url None None pieces a Ea) as (_ & _ & H). destruct (H eq_refl eq_refl body at_ Hn) as (e & _ & E). exists e. exact E.
    + exists e. unfold remote_extract, remote_stream, open_remote. rewrite Ea. reflexivity.
Qed.

(** *** several names.  An s3: name stands for the keys its listing gives (list_files, S3.v) *)
Definition local_name (n : bytes) : bool := negb (startswith (B "s3:") n).
Lemma listed_far fuel svc url keys k : list_files fuel svc url = Ret keys -> In k keys -> startswith (B "s3://") k = true.
Proof.
  unfold list_files. destruct (s3_parse url) as [bucket path]. destruct (list_loop fuel svc 0 (skipn 1 path) []) as [l|e|]; cbn [omap]; try discriminate.
  intros E Hk. injection E as <-. apply in_map_iff in Hk as (x & <- & _). unfold s3_url. reflexivity.
Qed.
Lemma each_app {A X} (use : X -> A -> outcome unit * A) l1 l2 a : each use (l1 ++ l2) a = andthen (each use l1 a) (fun _ a => each use l2 a).
Proof.
  revert a. induction l1 as [|x l1 IH]; intro a; [reflexivity|]. cbn [app each]. destruct (use x a) as [[[]|e|] a']; cbn [andthen]; [apply IH|reflexivity|reflexivity].
Qed.
Section Names_.
  Context {A : Type}.
  Variable files : bytes -> option bytes.
  Variables (fuel : nat) (svc : bytes -> service).
  Variable local : A -> input -> outcome unit * A.
  Variable remote : bytes -> A -> outcome unit * A.
  Notation run := (over_names files (fun n => list_files fuel (svc n) n) local remote).
  Lemma far_keys keys a : failing remote -> (forall k, In k keys -> startswith (B "s3://") k = true) ->
    match keys with
    | [] => each (one_file files local remote) keys a = (Ret tt, a)
    | k :: _ => exists e, remote k a = (Raise e, a) /\ each (one_file files local remote) keys a = (Raise e, a)
    end.
  Proof.
    intros Hf Hk. destruct keys as [|k keys]; [reflexivity|]. destruct (Hf k a) as [e E]. exists e. split; [exact E|].
    cbn [each]. unfold one_file. rewrite (Hk k) by (left; reflexivity). rewrite E. reflexivity.
  Qed.
  Lemma run_ends names : forall a a', failing remote -> run names a = (Ret tt, a') ->
    (forall n, In n names -> startswith (B "s3:") n = true -> list_files fuel (svc n) n = Ret []) /\
    run names a = run (filter local_name names) a.
  Proof.
    induction names as [|n names IH]; intros a a' Hf E; [split; [intros n []|reflexivity]|].
    unfold over_names in *. cbn [each] in E. cbn [filter]. unfold local_name at 1. unfold one_name at 1 in E. destruct (startswith (B "s3:") n) eqn:En; cbn [negb].
    - destruct (list_files fuel (svc n) n) as [keys|e|] eqn:El; try discriminate.
      pose proof (far_keys keys a Hf (fun k => listed_far fuel (svc n) n keys k El)) as X. destruct keys as [|k keys]; [|destruct X as (e & _ & X); rewrite X in E; discriminate].
      cbn [each andthen] in E. destruct (IH a a' Hf E) as [H1 H2]. split.
      + intros m [<-|Hm] Hs; [exact El|exact (H1 m Hm Hs)].
      + cbn [each]. unfold one_name at 1. rewrite En, El. cbn [each andthen]. exact H2.
    - destruct (one_file files local remote n a) as [[[]|e|] a1] eqn:E1; cbn [andthen] in E; try discriminate. destruct (IH a1 a' Hf E) as [H1 H2]. split.
      + intros m [<-|Hm] Hs; [congruence|exact (H1 m Hm Hs)].
      + cbn [each]. unfold one_name at 1 3. rewrite En, E1. cbn [andthen]. exact H2.
  Qed.
  (** a run ends normally only if no s3: name lists a key; it then is the run over the local names *)
  Theorem C95_normal_end_means_no_key : forall names a a', failing remote -> run names a = (Ret tt, a') ->
    (forall n, In n names -> startswith (B "s3:") n = true -> list_files fuel (svc n) n = Ret []) /\
    run names a = run (filter local_name names) a.
  Proof. exact run_ends. Qed.
  (** the first key of the first s3: name that lists one ends the run: what was written for the names before stays, nothing is
      written for the keys, and the names behind are never looked at *)
  Theorem C95_first_key_ends_the_run : forall before n k keys behind a a1, failing remote ->
    run before a = (Ret tt, a1) -> startswith (B "s3:") n = true -> list_files fuel (svc n) n = Ret (k :: keys) ->
    exists e, remote k a1 = (Raise e, a1) /\ run (before ++ n :: behind) a = (Raise e, a1).
  Proof.
    intros before n k keys behind a a1 Hf Eb En El. unfold over_names in *. rewrite each_app, Eb. cbn [andthen each]. unfold one_name at 1. rewrite En, El.
    destruct (far_keys (k :: keys) a1 Hf (fun k' => listed_far fuel (svc n) n (k :: keys) k' El)) as (e & E1 & E2). exists e. split; [exact E1|]. rewrite E2. reflexivity.
  Qed.
  (** names of local files: the loop over files of the other properties, on those before the first that is not there; that one raises *)
  Theorem C95_local_names : forall gunzip (use : A -> bytes -> stream -> outcome unit * A) l all names a,
    (forall a i, local a i = over_files gunzip use [i] a) ->
    found_files files names = (l, all) -> (forall n, In n names -> local_name n = true) ->
    run names a = andthen (over_files gunzip use l a) (fun _ a => (if all then Ret tt else Raise EOSError, a)).
  Proof.
    intros gunzip use l all names. revert l. induction names as [|n names IH]; intros l a Hu Hl Hn; [cbn in Hl; injection Hl as <- <-; reflexivity|].
    unfold over_names in *. cbn [each]. unfold one_name at 1. pose proof (Hn n (or_introl eq_refl)) as H1. unfold local_name in H1. apply negb_true_iff in H1. rewrite H1.
    assert (H2 : startswith (B "s3://") n = false).
    { destruct (startswith (B "s3://") n) eqn:E2; [|reflexivity]. exfalso. apply PyBytesFacts.startswith_iff in E2 as [t ->].
      assert (X : startswith (B "s3:") (B "s3://" ++ t) = true) by (apply PyBytesFacts.startswith_iff; exists (B "//" ++ t); reflexivity). congruence. }
    unfold one_file at 1. rewrite H2. cbn [found_files] in Hl. destruct (files n) as [d|] eqn:Ed; [|injection Hl as <- <-; reflexivity].
    destruct (found_files files names) as [l2 all2] eqn:Ef. injection Hl as <- Ha. subst all2.
    rewrite Hu. cbn [over_files]. destruct (open_input gunzip (mkin n d)) as [st|e|]; cbn [andthen]; [|reflexivity|reflexivity].
    destruct (use a (in_name (mkin n d)) st) as [[[]|e|] a1]; cbn [andthen]; [|reflexivity|reflexivity]. exact (IH l2 a1 Hu eq_refl (fun m Hm => Hn m (or_intror Hm))).
  Qed.
End Names_.

(** warcvalid: the first key of an s3: name makes it say that the archives are not valid *)
Theorem C95_warcvalid_refuses : forall answer inflate skip parse fuel lines files n svc local before name k keys behind body correct,
  let remote := fun url => remote_records answer inflate skip parse (Datatypes.S fuel) (Datatypes.S lines) None true body url None None in
  let run := over_names files (fun m => list_files n (svc m) m) local remote in
  responsive answer -> run before true = (Ret tt, correct) -> startswith (B "s3:") name = true -> list_files n (svc name) name = Ret (k :: keys) ->
  valid_status (run (before ++ name :: behind) true) = Ret (-1)%Z.
Proof.
  intros answer inflate skip parse fuel lines files n svc local before name k keys behind body correct remote run Hr Hb Hn Hl.
  assert (Hf : failing remote).
  { destruct (C95_remote_fails (A := bool) answer inflate skip parse fuel lines Hr) as [H _]. apply H. discriminate. }
  destruct (C95_first_key_ends_the_run files n svc local remote before name k keys behind true correct Hf Hb Hn Hl) as (e & _ & E).
  unfold run. rewrite E. reflexivity.
Qed.

(** *** warcextract and warcpayload on the command line (Cli.v), with an s3:// name *)
Theorem C95_commands_raise : forall answer inflate skip parse fuel lines gunzip client files from_stdin body url rest, responsive answer ->
  startswith (B "s3://") url = true ->
  (let far := fun name o _ => remote_extract answer inflate skip parse (Datatypes.S fuel) (Datatypes.S lines) body name o [] in
   exists e, extract_main gunzip files far from_stdin (url :: rest) = (Raise e, [])) /\
  (let far := fun name o l => remote_records answer inflate skip parse (Datatypes.S fuel) (Datatypes.S lines) (Some 1) false body name (Some o) l [] in
   forall arg, (exists place, arg = url ++ B ":" ++ place /\ ~ In COLON place) -> exists e, payload_main gunzip client files far (arg :: rest) = (Raise e, [])).
Proof.
  intros answer inflate skip parse fuel lines gunzip client files from_stdin body url rest Hr Hu.
  destruct (C95_remote_fails (A := bytes) answer inflate skip parse fuel lines Hr) as (H1 & _ & H3). split.
  - cbn zeta. unfold extract_main. destruct (match rest with [] => Ret 0%Z | o :: _ => int_arg o end) as [o|e|] eqn:E.
    + unfold with_file. rewrite Hu. exact (H3 body o url []).
    + exists e. reflexivity.
    + exfalso. destruct rest as [|o rest]; [discriminate|]. unfold int_arg in E. destruct (py_int 10 o); discriminate.
  - cbn zeta. intros arg (place & -> & Hp). unfold payload_main, payload_arg. change (B ":") with [COLON]. rewrite rsplit_last by exact Hp.
    assert (I : forall t, int_arg t <> Diverge) by (intro t; unfold int_arg; destruct (py_int 10 t); discriminate).
    assert (K : forall o l, exists e, with_file files (fun name o l => remote_records answer inflate skip parse (Datatypes.S fuel) (Datatypes.S lines) (Some 1) false body name (Some o) l [])
        url o l (fun i => warcpayload gunzip client i o) = (Raise e, [])).
    { intros o l. unfold with_file. rewrite Hu. apply (H1 (Some 1) false body (Some o) l ltac:(discriminate) url []). }
    destruct (split_once 44 place) as [[a b]|].
    + destruct (int_arg a) as [o|e|] eqn:Ea; cbn [bind]; [|exists e; reflexivity|destruct (I _ Ea)].
      destruct (int_arg b) as [l|e|] eqn:Eb; cbn [bind]; [apply K|exists e; reflexivity|destruct (I _ Eb)].
    + destruct (int_arg place) as [o|e|] eqn:Ea; cbn [bind]; [apply K|exists e; reflexivity|destruct (I _ Ea)].
Qed.

(** *** the request asked is that of open_url (C55) *)
Theorem C95_request : forall url (o l : option nat),
  url_request url (option_map Z.of_nat o) (option_map Z.of_nat l) = open_url url o l.
Proof.
  intros url o l. unfold url_request, open_url. destruct (s3_parse url) as [bucket path]. cbn [fst snd]. f_equal.
  destruct o as [o|], l as [l|]; cbn [option_map range_of]; rewrite <- ?Nat2Z.inj_add, ?PropsIndex.dec_Z_nat; reflexivity.
Qed.

(** ** a concrete case: an archive of one record lies in the bucket, and boto writes its bytes *)
Definition demo_answer : request -> outcome (list pystr) := fun _ => Ret [PBytes (B "WARC/1.0")].
Example C95_case : responsive demo_answer /\
  url_request (B "s3://bucket/a/b.warc") (Some 100%Z) (Some 20%Z) = mkreq (B "bucket") (B "a/b.warc") (Some (B "bytes=100-120")) /\
  trouble (B "s3://bucket/a/b.warc") [PBytes (B "WARC/1.0")] ETypeError /\
  (forall inflate skip parse, remote_first demo_answer inflate skip parse AWarc GAuto (B "s3://bucket/a/b.warc") None None true 1 = Raise ETypeError) /\
  (forall inflate skip parse, remote_first (fun _ => Ret []) inflate skip parse AWarc GAuto (B "s3://bucket/a/b.warc.gz") None None true 1 = Raise EOSError) /\
  list_files 2 (mksvc (fun _ => [B "a/b.warc"]) (fun _ => 1)) (B "s3://bucket/a/") = Ret [B "s3://bucket/a/b.warc"].
Proof.
  split; [intros rq E; discriminate|]. split; [vm_compute; reflexivity|].
  split; [apply Bytes; exists (B "WARC/1.0"); left; reflexivity|]. split; [intros; reflexivity|]. split; [intros; vm_compute; reflexivity|]. vm_compute. reflexivity.
Qed.
