(** Archives named by an s3:// URL: hanzo/warctools/s3.py:18-36 as hanzo/warctools/stream.py:15-21 calls it, and the tools' loops
    over names (for name in expand_files(...)).  open_url collects the object in an io.StringIO, a file of text; boto writes
    bytes.  The service is the environment: what it answers to a request (the pieces it writes, or an exception) is arbitrary.
    Simplified: boto uses the handle it is given only through write(). *)
From Verif Require Export TextMode S3 Cli.
From Coq Require Import String List ZArith.
Open Scope list_scope.

(** ** io.StringIO: its text and the position *)
Definition text_io : Type := (list N * nat)%type.
(** write: bytes raise TypeError; a text replaces what stands at the position *)
Definition io_write (s : text_io) (x : pystr) : outcome text_io :=
  match x with
  | PBytes _ => Raise ETypeError
  | PText t => Ret (firstn (snd s) (fst s) ++ t ++ skipn (snd s + List.length t) (fst s), snd s + List.length t)
  end.
(** read, readline, tell and the two forms of seek; a seek relative to the current position must be by 0 *)
Definition io_read (n : Z) (s : text_io) : outcome pystr * text_io :=
  let rest := skipn (snd s) (fst s) in
  let got := if (n <? 0)%Z then rest else firstn (Z.to_nat n) rest in
  (Ret (PText got), (fst s, snd s + List.length got)).
Definition io_readline (s : text_io) : outcome pystr * text_io :=
  let got := take_line (skipn (snd s) (fst s)) in (Ret (PText got), (fst s, snd s + List.length got)).
Definition io_seek (n : Z) (s : text_io) : outcome unit * text_io :=
  if (n <? 0)%Z then (Raise EValueError, s) else (Ret tt, (fst s, Z.to_nat n)).
Definition io_seek_cur (n : Z) (s : text_io) : outcome unit * text_io := (if (n =? 0)%Z then Ret tt else Raise EOSError, s).
Definition io_handle : handle text_io :=
  mkhandle text_io (fun s => (Ret (snd s), s)) io_read io_readline io_seek io_seek_cur.

(** ** open_url, s3.py:18-36: the request (offset and length are any integers) and what becomes of the answer *)
Definition range_of (offset len : option Z) : option bytes :=
  match offset, len with
  | Some o, Some l => Some (B "bytes=" ++ dec_Z o ++ B "-" ++ dec_Z (o + l))
  | Some o, None => Some (B "bytes=" ++ dec_Z o ++ B "-")
  | None, _ => None
  end.
Definition url_request (url : bytes) (offset len : option Z) : request :=
  mkreq (fst (s3_parse url)) (skipn 1 (snd (s3_parse url))) (range_of offset len).
(** k.get_contents_to_file(s), s.seek(0) *)
Fixpoint written (s : text_io) (pieces : list pystr) : outcome text_io :=
  match pieces with
  | [] => Ret s
  | x :: t => bind (io_write s x) (fun s => written s t)
  end.

Section Remote.
  (** what the service answers: the pieces it writes *)
  Variable answer : request -> outcome (list pystr).
  (** GzipFile's decompression once it has seen the two magic bytes *)
  Variable inflate : text_io -> outcome pystr * text_io.
  (** the code of _skip_to_eoc and of the parser on this handle (Reader.v has it for binary files) *)
  Variable skip : hstream (S := text_io) -> outcome unit * hstream (S := text_io).
  Variable parse : hstream (S := text_io) -> option nat -> pystr -> outcome (option record * list perr * option nat) * hstream (S := text_io).

  Definition open_remote (url : bytes) (offset len : option Z) : outcome text_io :=
    bind (answer (url_request url offset len)) (fun pieces =>
    bind (written ([], 0) pieces) (fun s => Ret (fst s, 0))).
  (** readline of a GzipFile that has not read anything yet: gzip.GzipFile reads two bytes and compares them with the magic
      bytes (or with nothing at all, the end of the file) *)
  Definition gz_readline (s : text_io) : outcome pystr * text_io :=
    andthen (io_read 2 s) (fun magic s =>
      if py_is magic [] then yields (PBytes []) s
      else if py_is magic GZIP_MAGIC then inflate s
      else (Raise EOSError, s)).
  (** the handle the stream reads from: RecordStream's own or the GzipFile of the two gzip streams *)
  Definition reads_from (k : skind) : handle text_io :=
    match k with
    | SPlain => io_handle
    | _ => mkhandle text_io (fun s => (Ret 0, s)) (fun _ s => gz_readline s) gz_readline io_seek io_seek_cur
    end.

  (** open_record_stream(record_class, filename=url, gzip=, offset=, length=), stream.py:8-45 *)
  Definition remote_stream (c : aclass) (gz : gzmode) (url : bytes) (offset len : option Z) : outcome (skind * text_io) :=
    bind (open_remote url offset len) (fun s =>
      match h_open io_handle gz_readline c (endswith (B ".gz") url) gz s with
      | (Ret (_, k), s) => Ret (k, s)
      | (Raise e, _) => Raise e
      | (Diverge, _) => Diverge
      end).
  (** its first record: read_records(offsets=) or iteration *)
  Definition remote_first (c : aclass) (gz : gzmode) (url : bytes) (offset len : option Z) (offsets : bool) (lines : nat) : outcome item :=
    bind (remote_stream c gz url offset len) (fun ks =>
      fst (h_read_record (reads_from (fst ks)) skip parse lines offsets (None, snd ks))).

  (** *** The tools on such a name.  [A] is the tool's state (its output), [body] its loop body (Tools.v, Dump.v); gzip="auto" *)
  Section Loops.
    Context {A : Type}.
    Variables fuel lines : nat.
    (** read_records: warcindex.py:36-58, warcvalid.py:36-50, warcdump.py:33-53 and (limit 1, with an offset and perhaps a length)
        warcpayload.py:34-62 *)
    Definition remote_records (limit : option nat) (offsets : bool) body (url : bytes) (offset len : option Z) (a : A) : outcome unit * A :=
      match remote_stream AWarc GAuto url offset len with
      | Ret (k, s) => match h_records (reads_from k) skip parse fuel lines limit offsets body a (None, s) with (o, a', _) => (o, a') end
      | Raise e => (Raise e, a)
      | Diverge => (Diverge, a)
      end.
    (** iteration: warc2warc.py:77-82, warcfilter.py:69-73 *)
    Definition remote_iter body (url : bytes) (a : A) : outcome unit * A :=
      match remote_stream AWarc GAuto url None None with
      | Ret (k, s) => match h_iter (reads_from k) skip parse fuel lines body a (None, s) with (o, a', _) => (o, a') end
      | Raise e => (Raise e, a)
      | Diverge => (Diverge, a)
      end.
    (** warcextract.py:46-63: with a seek to the offset before (of the file below, for a compressed stream, stream.py:231-235) *)
    Definition remote_extract body (url : bytes) (at_ : Z) (a : A) : outcome unit * A :=
      match remote_stream AWarc GAuto url None None with
      | Ret (k, s) =>
          match io_seek at_ s with
          | (Ret _, s) => match h_records (reads_from k) skip parse fuel lines (Some 1) false body a (None, s) with (o, a', _) => (o, a') end
          | (Raise e, _) => (Raise e, a)
          | (Diverge, _) => (Diverge, a)
          end
      | Raise e => (Raise e, a)
      | Diverge => (Diverge, a)
      end.
  End Loops.
End Remote.

(** ** for name in expand_files(names): __init__.py:8-14 is a generator, so that every name is used before the next one is looked
    at.  [local] and [remote] are what the tool does with a local file and with an s3:// name. *)
Section Names.
  Context {A : Type}.
  Variable files : bytes -> option bytes.
  Variable listing : bytes -> outcome (list bytes).      (* list_files, S3.v *)
  Variable local : A -> input -> outcome unit * A.
  Variable remote : bytes -> A -> outcome unit * A.
  (** one name after the other *)
  Fixpoint each {X} (use : X -> A -> outcome unit * A) (l : list X) (a : A) : outcome unit * A :=
    match l with
    | [] => (Ret tt, a)
    | x :: t => andthen (use x a) (fun _ a => each use t a)
    end.
  (** a file that is not there raises FileNotFoundError *)
  Definition one_file (name : bytes) (a : A) : outcome unit * A :=
    if startswith (B "s3://") name then remote name a
    else match files name with Some d => local a (mkin name d) | None => (Raise EOSError, a) end.
  Definition one_name (name : bytes) (a : A) : outcome unit * A :=
    if startswith (B "s3:") name
    then match listing name with
         | Ret keys => each one_file keys a
         | Raise e => (Raise e, a)
         | Diverge => (Diverge, a)
         end
    else one_file name a.
  Definition over_names (names : list bytes) (a : A) : outcome unit * A := each one_name names a.
End Names.
(** the exit status of warcvalid (warcvalid.py:30-61) over such a loop, the state being [correct] *)
Definition valid_status (x : outcome unit * bool) : outcome Z :=
  match x with
  | (Ret _, true) => Ret 0%Z
  | (Ret _, false) => Ret (-1)%Z
  | (Raise _, _) => Ret (-1)%Z
  | (Diverge, _) => Diverge
  end.
