(** The record stream: a file plus the number of bytes left in the current
    record's content.  Models class RecordStream and its subclasses,
    hanzo/warctools/stream.py:48-258. *)
From Verif Require Export Regex FileIO.

(** State of an ArcParser (arc.py:77-87): version and field names learnt from
    the filedesc record. *)
Record arcstate : Type := mkarc { a_version : bytes; a_headers : list bytes }.
(** ArcParser.__init__, arc.py:77-87 *)
Definition arc_init : arcstate := mkarc [] [].

(** The record parser of a stream (make_parser in warc.py:135-137, arc.py:42-45,
    mixed.py:8-10). *)
Inductive parser : Type := PWarc | PArc (a : arcstate) | PMixed (a : arcstate).

(** RecordStream, GzipRecordStream, GzipFileStream (stream.py:48, 206, 237) *)
Inductive skind : Type := SPlain | SGzipRecord | SGzipFile.

(** For the two gzip kinds [s_fh] is the decompressed file (GzipFile is an
    oracle, see Record.v); errors raised by the decompressor in the middle of a
    file are not modelled. *)
Record stream : Type := mkstream {
  s_kind : skind;
  s_fh : file;
  s_eoc : option Z;        (** bytes_to_eoc *)
  s_parser : parser }.

Definition set_fh (st : stream) (f : file) : stream :=
  mkstream (s_kind st) f (s_eoc st) (s_parser st).
Definition set_eoc (st : stream) (e : option Z) : stream :=
  mkstream (s_kind st) (s_fh st) e (s_parser st).
Definition set_parser (st : stream) (p : parser) : stream :=
  mkstream (s_kind st) (s_fh st) (s_eoc st) p.

(** RecordStream.__init__, stream.py:52-58 *)
Definition new_stream (k : skind) (f : file) (p : parser) : stream :=
  mkstream k f None p.

(** [self.bytes_to_eoc -= len(result)] when it is set (stream.py:129-130, 177-178) *)
Definition count_down (st : stream) (n : nat) : stream :=
  set_eoc st (match s_eoc st with
              | Some e => Some (e - Z.of_nat n)%Z
              | None => None
              end).

(** RecordStream._read, stream.py:122-132 *)
Definition raw_read (st : stream) (count : option Z) : outcome bytes * stream :=
  match count with
  | Some n =>
      match f_read (s_fh st) n with
      | (Ret d, f') => (Ret d, count_down (set_fh st f') (length d))
      | (Raise e, f') => (Raise e, set_fh st f')
      | (Diverge, f') => (Diverge, set_fh st f')
      end
  | None =>
      let '(d, f') := f_read_all (s_fh st) in
      (Ret d, count_down (set_fh st f') (length d))
  end.

(** The limit computed by read and readline, stream.py:140-147 and 163-170 *)
Definition bounded (st : stream) (count : option Z) : option Z :=
  match s_eoc st, count with
  | Some e, Some c => Some (Z.min c e)
  | Some e, None => Some e
  | None, Some c => Some c
  | None, None => None
  end.

(** RecordStream.read, stream.py:134-149 *)
Definition stream_read (st : stream) (count : option Z) : outcome bytes * stream :=
  raw_read st (bounded st count).

(** RecordStream.readline, stream.py:157-179 *)
Definition stream_readline (st : stream) (maxlen : option Z) : bytes * stream :=
  let '(l, f') := match bounded st maxlen with
                  | Some lim => f_readline_lim (s_fh st) lim
                  | None => f_readline (s_fh st)
                  end in
  (l, count_down (set_fh st f') (length l)).

(** CHUNK_SIZE, stream.py:181 *)
Definition CHUNK_SIZE : Z := 8192%Z.

(** RecordStream._skip_to_eoc, stream.py:112-120.  Each iteration reads at
    least one byte or raises. *)
Definition E_short : exn := EException [101%N].  (* 'expected {} bytes but only read {}' *)
Definition E_unset : exn := EException [98%N].   (* 'bytes_to_eoc is unset, cannot skip to end' *)
Fixpoint skip_loop (fuel : nat) (st : stream) : outcome unit * stream :=
  match fuel with
  | O => (Diverge, st)
  | S fuel' =>
      match s_eoc st with
      | None => (Raise E_unset, st)
      | Some e =>
          if Z.ltb 0 e then
            let read_size := Z.min CHUNK_SIZE e in
            match raw_read st (Some read_size) with
            | (Ret buf, st') =>
                if Z.ltb (Z.of_nat (length buf)) read_size
                then (Raise E_short, st')
                else skip_loop fuel' st'
            | (Raise x, st') => (Raise x, st')
            | (Diverge, st') => (Diverge, st')
            end
          else (Ret tt, st)
      end
  end.
(** Enough fuel for every loop over the file: one more than its size. *)
Definition file_fuel (f : file) : nat := S (S (length (f_data f))).
Definition skip_to_eoc (st : stream) : outcome unit * stream :=
  skip_loop (file_fuel (s_fh st)) st.

(** re.match(br'^[\r\n]+$', line), stream.py:98 *)
Definition is_crlf (c : N) : bool := N.eqb c 13 || N.eqb c 10.
Definition crlf_line_rx : re := RSeq RBol (RSeq (rplus true is_crlf) REol).

(** The terminator loop, stream.py:94-99: returns the offset of the first line
    that is not made of CR and LF only, and that line. *)
Fixpoint blank_loop (fuel : nat) (f : file) : outcome (nat * bytes) * file :=
  match fuel with
  | O => (Diverge, f)
  | S fuel' =>
      let offset := f_tell f in
      let '(line, f') := f_readline f in
      if re_test crlf_line_rx line then blank_loop fuel' f'
      else (Ret (offset, line), f')
  end.
Definition skip_blank (f : file) : outcome (nat * bytes) * file :=
  blank_loop (file_fuel f) f.

(** RecordStream.seek, stream.py:60-62.  (GzipRecordStream.seek, stream.py:231-235,
    moves the compressed file; see [first_seek] in Tools.v and GzSeek.v.) *)
Definition stream_seek (st : stream) (pos : Z) : outcome unit * stream :=
  let '(o, f') := f_seek (s_fh st) pos in (o, set_fh st f').
