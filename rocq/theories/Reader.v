(** Mixed parser, reading records from a stream, and opening archives:
    hanzo/warctools/mixed.py, stream.py, archive_detect.py. *)
From Verif Require Export Arc.
From Coq Require Import String List.
Open Scope list_scope.

Definition WARC_PREFIX : bytes := Eval vm_compute in B "WARC".

(** MixedParser.parse, mixed.py:17-28 *)
Fixpoint mixed_loop (fuel : nat) (a : arcstate) (st : stream) (offset : option nat)
    (line : bytes) : outcome parsed * arcstate * stream :=
  match fuel with
  | O => (Diverge, a, st)
  | S fuel' =>
      match line with
      | [] => (Ret (None, [], offset), a, st)
      | _ =>
          if startswith WARC_PREFIX line then
            let '(o, st') := warc_parse st offset (Some line) in (o, a, st')
          else if negb (in_list line [[10%N]; CRLF; [13%N]]) then
            arc_parse a st offset (Some line)
          else
            let '(line', st') := stream_readline st None in
            mixed_loop fuel' a st' offset line'
      end
  end.
Definition mixed_parse (a : arcstate) (st : stream) (offset : option nat) (line : option bytes)
  : outcome parsed * arcstate * stream :=
  let '(line0, st0) := match line with
                       | Some l => (l, st)
                       | None => stream_readline st None
                       end in
  mixed_loop (file_fuel (s_fh st)) a st0 offset line0.

(** self.record_parser.parse(self, offset, line) *)
Definition run_parser (st : stream) (offset : option nat) (line : bytes)
  : outcome parsed * stream :=
  match s_parser st with
  | PWarc => warc_parse st offset (Some line)
  | PArc a => let '(o, a', st') := arc_parse a st offset (Some line) in
              (o, set_parser st' (PArc a'))
  | PMixed a => let '(o, a', st') := mixed_parse a st offset (Some line) in
                (o, set_parser st' (PMixed a'))
  end.

(** One item produced by read_records: (offset, record, errors). *)
Definition item : Type := option nat * option record * list perr.

(** _read_record of the three stream classes: stream.py:88-102, 213-229,
    242-257.  For record-compressed streams the offset is GeeZipFile.member_offset,
    which is set only in a hook (_read, stream.py:195) that GzipFile of
    Python >= 3.5 never calls: it stays None.  For whole-file gzip the final line
    refers to a name [offset] that is not defined. *)
Definition read_record (st : stream) (offsets : bool) : outcome item * stream :=
  let skipped := match s_eoc st with
                 | Some _ => skip_to_eoc st
                 | None => (Ret tt, st)
                 end in
  match skipped with
  | (Ret _, st1) =>
      let st2 := set_eoc st1 None in
      match skip_blank (s_fh st2) with
      | (Ret (pos, line), f3) =>
          let st3 := set_fh st2 f3 in
          let offset := match s_kind st with
                        | SPlain => if offsets then Some pos else None
                        | _ => None
                        end in
          match run_parser st3 offset line with
          | (Ret (r, errs, offset'), st4) =>
              match s_kind st with
              | SPlain => (Ret (offset', r, errs), st4)
              | SGzipRecord => (Ret (None, r, errs), st4)
              | SGzipFile => (Raise ENameError, st4)
              end
          | (Raise e, st4) => (Raise e, st4)
          | (Diverge, st4) => (Diverge, st4)
          end
      | (Raise e, f3) => (Raise e, set_fh st2 f3)
      | (Diverge, f3) => (Diverge, set_fh st2 f3)
      end
  | (Raise e, st1) => (Raise e, st1)
  | (Diverge, st1) => (Diverge, st1)
  end.

(** ** Opening: archive_detect.py:5-27, stream.py:8-45 *)

(** is_gzip_file, archive_detect.py:5-8 *)
Definition GZIP_MAGIC : bytes := [31; 139]%N.
Definition is_gzip_file (f : file) : bool * file :=
  match f_read f 2 with
  | (Ret sig, f1) =>
      (bytes_eqb sig GZIP_MAGIC, snd (f_seek_cur f1 (- Z.of_nat (List.length sig))))
  | (_, f1) => (false, f1)
  end.

(** ^filedesc:// , arc.py:197; ^$ , warc.py:284 *)
Definition filedesc_rx : re := RSeq RBol (rstr (B "filedesc://")).
Definition blank_rx : re := RSeq RBol REol.
Inductive rtype : Type := TWarc | TArc.
(** archive_types in registration order: warc.py:285-286 then arc.py:197
    (warctools/__init__.py imports warc before arc) *)
Definition archive_types : list (re * rtype) :=
  [(version_rx, TWarc); (blank_rx, TWarc); (filedesc_rx, TArc)].
Fixpoint first_type (l : list (re * rtype)) (line : bytes) : option rtype :=
  match l with
  | [] => None
  | (r, t) :: l' => if re_test r line then Some t else first_type l' line
  end.

Section Open.
  (** GzipFile(fileobj=f).read(): the decompressed contents of what follows the
      file position (oracle). *)
  Variable gunzip : bytes -> bytes.

  (** guess_record_type, archive_detect.py:10-24: the type and the file, whose
      position is restored by the seek to the remembered offset *)
  Definition guess_record_type (f : file) : option rtype * file :=
    let offset := f_tell f in
    let '(gz, f1) := is_gzip_file f in
    let '(line, f2) :=
      if gz then (take_line (gunzip (f_rest f1)), f_advance f1 (List.length (f_rest f1)))
      else f_readline f1 in
    (first_type archive_types line, snd (f_seek f2 (Z.of_nat offset))).

  (** The class whose open_archive is called; ArchiveRecord means guess
      (record.py:192-197). *)
  Inductive aclass : Type := AArchive | AWarc | AArc | AMixed.
  (** The gzip argument: 'auto', 'record', 'file' or None. *)
  Inductive gzmode : Type := GAuto | GRecord | GFile | GNone.
  Definition E_guess : exn := EException [103%N].  (* 'Failed to guess compression' *)

  Definition decompressed (f : file) : file := mkfile (gunzip (f_rest f)) 0 true.

  (** open_record_stream, stream.py:23-45, for an already opened file handle;
      [named_gz] is filename.endswith('.gz') *)
  Definition open_stream (c : aclass) (named_gz : bool) (gz : gzmode) (f : file)
    : outcome stream :=
    let '(p, f1) :=
      match c with
      | AWarc => (Some PWarc, f)
      | AArc => (Some (PArc arc_init), f)
      | AMixed => (Some (PMixed arc_init), f)
      | AArchive => match guess_record_type f with
                    | (Some TWarc, f') => (Some PWarc, f')
                    | (Some TArc, f') => (Some (PArc arc_init), f')
                    | (None, f') => (None, f')
                    end
      end in
    match p with
    | None => Raise E_guess
    | Some p =>
        let '(mode, f2) :=
          match gz with
          | GAuto => if named_gz then (GRecord, f1)
                     else let '(b, f') := is_gzip_file f1 in
                          (if b then GRecord else GNone, f')
          | _ => (gz, f1)
          end in
        match mode with
        | GRecord => Ret (new_stream SGzipRecord (decompressed f2) p)
        | GFile => Ret (new_stream SGzipFile (decompressed f2) p)
        | _ => Ret (new_stream SPlain f2 p)
        end
    end.
End Open.

(** ** Driving a stream *)

(** A caller's use of a record's content between two records: a read(n) or
    readline(n) on content_file. *)
Inductive cop : Type := OpRead (n : option Z) | OpReadline (n : option Z).
Definition run_cop (st : stream) (o : cop) : outcome bytes * stream :=
  match o with
  | OpRead n => stream_read st n
  | OpReadline n => let '(l, st') := stream_readline st n in (Ret l, st')
  end.
Fixpoint run_cops (st : stream) (ops : list cop) : outcome (list bytes) * stream :=
  match ops with
  | [] => (Ret [], st)
  | o :: ops' =>
      match run_cop st o with
      | (Ret d, st') => let '(r, st'') := run_cops st' ops' in
                        (omap (cons d) r, st'')
      | (Raise e, st') => (Raise e, st')
      | (Diverge, st') => (Diverge, st')
      end
  end.

(** read_records(limit, offsets), stream.py:64-75, driven by a [for] loop whose
    body is [body]: it gets the item, may use the stream, updates its own state
    [S], and answers whether to go on (false = break).  The generator resumes
    after the body; it stops after an item without a record or when [limit]
    items were produced. *)
Fixpoint read_loop {S} (fuel : nat) (limit : option nat) (offsets : bool)
    (body : S -> stream -> item -> outcome bool * S * stream)
    (s : S) (st : stream) : outcome unit * S * stream :=
  match limit with
  | Some O => (Ret tt, s, st)
  | _ =>
    match fuel with
    | O => (Diverge, s, st)
    | Datatypes.S fuel' =>
      match read_record st offsets with
      | (Ret it, st1) =>
          match body s st1 it with
          | (Ret true, s', st2) =>
              match snd (fst it) with
              | Some _ => read_loop fuel'
                            (match limit with Some (Datatypes.S n) => Some n | _ => limit end)
                            offsets body s' st2
              | None => (Ret tt, s', st2)
              end
          | (Ret false, s', st2) => (Ret tt, s', st2)
          | (Raise e, s', st2) => (Raise e, s', st2)
          | (Diverge, s', st2) => (Diverge, s', st2)
          end
      | (Raise e, st1) => (Raise e, s, st1)
      | (Diverge, st1) => (Diverge, s, st1)
      end
    end
  end.
Definition for_read_records {S} (limit : option nat) (offsets : bool)
    (body : S -> stream -> item -> outcome bool * S * stream)
    (s : S) (st : stream) : outcome unit * S * stream :=
  read_loop (file_fuel (s_fh st)) limit offsets body s st.

(** list(stream.read_records(limit, offsets)): the items, and how it ended *)
Definition collect (acc : list item) (st : stream) (it : item)
  : outcome bool * list item * stream := (Ret true, acc ++ [it], st).
Definition list_records (st : stream) (limit : option nat) (offsets : bool)
  : outcome unit * list item * stream :=
  for_read_records limit offsets collect [] st.

Definition E_decode : exn := EException [100%N].  (* 'Errors while decoding ...' *)

(** for record in stream: body   -   RecordStream.__iter__, stream.py:77-86 *)
Fixpoint iter_loop {S} (fuel : nat)
    (body : S -> stream -> record -> outcome unit * S * stream)
    (s : S) (st : stream) : outcome unit * S * stream :=
  match fuel with
  | O => (Diverge, s, st)
  | Datatypes.S fuel' =>
      match read_record st false with
      | (Ret (_, Some r, _), st1) =>
          match body s st1 r with
          | (Ret _, s', st2) => iter_loop fuel' body s' st2
          | (Raise e, s', st2) => (Raise e, s', st2)
          | (Diverge, s', st2) => (Diverge, s', st2)
          end
      | (Ret (_, None, errs), st1) =>
          match errs with
          | [] => (Ret tt, s, st1)
          | _ => (Raise E_decode, s, st1)
          end
      | (Raise e, st1) => (Raise e, s, st1)
      | (Diverge, st1) => (Diverge, s, st1)
      end
  end.
Definition for_records {S} (body : S -> stream -> record -> outcome unit * S * stream)
    (s : S) (st : stream) : outcome unit * S * stream :=
  iter_loop (file_fuel (s_fh st)) body s st.
