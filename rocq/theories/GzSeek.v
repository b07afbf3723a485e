(** Seeking in a compressed record stream: GzipRecordStream, hanzo/warctools/stream.py:206-235,
    with the compressed file below its GzipFile.

    [GzipRecordStream.seek] moves the compressed file.  It also sets an attribute
    [_new_member] on the GzipFile, which GzipFile stopped looking at in Python 3.5: the
    decompressor (gzip._GzipReader, behind an io.BufferedReader) is not told.  It has taken some
    compressed bytes from the file already, more than it needed, and goes on with these; only
    when it needs more does it read from the place the file was moved to.  So what it decompresses is
    the concatenation of the stretches of the file it was given, in that order.  How much it
    takes at a time depends on the Python version (8192 bytes until 3.11, then 131072, plus
    headers): here every call says how much was taken in while it ran. *)
From Verif Require Export Reader.
From Coq Require Import String List.
Open Scope list_scope.

Record gzs : Type := mkgzs {
  g_raw : file;      (** raw_fh: the compressed file, where the next bytes will be taken from *)
  g_seen : bytes;    (** the compressed bytes the GzipFile has taken so far *)
  g_st : stream }.   (** the stream over the decompressed text *)

(** calls on the stream: the next record (next(stream.read_records(limit=1, offsets)), stream.py:64-75)
    and some reads of its content; seek(offset) *)
Inductive gcall : Type := GNext (ops : list cop) | GSeek (offset : Z).
(** what a call gives *)
Inductive ganswer : Type := GItem (it : item) (data : outcome (list bytes)) | GMoved | GRaised (e : exn) | GHangs.

Section Gz.
  Variable gunzip : bytes -> bytes.
  (** GzipRecordStream.__init__, stream.py:209-211: nothing taken yet *)
  Definition g_open (f : file) (p : parser) : gzs := mkgzs f [] (new_stream SGzipRecord (decompressed gunzip f) p).
  (** the GzipFile takes [n] more bytes *)
  Definition g_take (g : gzs) (n : nat) : gzs :=
    mkgzs (f_advance (g_raw g) n) (g_seen g ++ firstn n (f_rest (g_raw g))) (g_st g).
  (** GzipRecordStream.seek, stream.py:231-235: the text ahead is now another one; the place in
      it and bytes_to_eoc stay *)
  Definition g_seek (g : gzs) (offset : Z) : ganswer * gzs :=
    match f_seek (g_raw g) offset with
    | (Ret _, f) =>
        let st := g_st g in
        (GMoved, mkgzs f (g_seen g)
                   (set_fh st (mkfile (gunzip (g_seen g ++ f_rest f)) (f_pos (s_fh st)) (f_strict (s_fh st)))))
    | (Raise e, f) => (GRaised e, mkgzs f (g_seen g) (g_st g))
    | (Diverge, f) => (GHangs, mkgzs f (g_seen g) (g_st g))
    end.
  (** GzipRecordStream._read_record, stream.py:213-229, then the reads *)
  Definition g_next (g : gzs) (ops : list cop) : ganswer * gzs :=
    match read_record (g_st g) true with
    | (Ret (o, Some r, errs), st) =>
        let '(d, st') := run_cops st ops in (GItem (o, Some r, errs) d, mkgzs (g_raw g) (g_seen g) st')
    | (Ret it, st) => (GItem it (Ret []), mkgzs (g_raw g) (g_seen g) st)
    | (Raise e, st) => (GRaised e, mkgzs (g_raw g) (g_seen g) st)
    | (Diverge, st) => (GHangs, mkgzs (g_raw g) (g_seen g) st)
    end.
  (** a call, and how many compressed bytes are taken in while it runs *)
  Definition g_call (g : gzs) (c : gcall * nat) : ganswer * gzs :=
    match c with
    | (GNext ops, n) => let '(x, g') := g_next g ops in (x, g_take g' n)
    | (GSeek offset, _) => g_seek g offset
    end.
  Fixpoint g_run (g : gzs) (calls : list (gcall * nat)) : list ganswer * gzs :=
    match calls with
    | [] => ([], g)
    | c :: rest => let '(x, g1) := g_call g c in let '(xs, g2) := g_run g1 rest in (x :: xs, g2)
    end.
End Gz.
