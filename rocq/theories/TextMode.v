(** Handles in text mode: what the reader and the tools' stdin modes do with a file object whose
    reads give text instead of bytes.  Model of the same code as Reader.v
    (hanzo/warctools/stream.py:8-45, 64-99, archive_detect.py:5-24) over an arbitrary handle. *)
From Verif Require Export Reader.
From Coq Require Import String List ZArith.
Open Scope list_scope.

(** what read and readline give: bytes, or a text (its code points) *)
Inductive pystr : Type := PBytes (b : bytes) | PText (t : list N).
Definition py_len (s : pystr) : nat := match s with PBytes b => List.length b | PText t => List.length t end.
(** re.match of a pattern over bytes: TypeError for every text *)
Definition py_match (r : re) (s : pystr) : outcome bool :=
  match s with PBytes b => Ret (re_test r b) | PText _ => Raise ETypeError end.
(** comparison with a bytes object: a text is never equal to one *)
Definition py_is (s : pystr) (b : bytes) : bool := match s with PBytes x => bytes_eqb x b | PText _ => false end.

(** a file object: any state, any behaviour of its methods *)
Record handle (S : Type) : Type := mkhandle {
  h_tell : S -> outcome nat * S;
  h_read : Z -> S -> outcome pystr * S;
  h_readline : S -> outcome pystr * S;
  h_seek : Z -> S -> outcome unit * S;               (* seek(n) *)
  h_seek_cur : Z -> S -> outcome unit * S }.         (* seek(n, 1) *)
Arguments h_tell {S}. Arguments h_read {S}. Arguments h_readline {S}. Arguments h_seek {S}. Arguments h_seek_cur {S}.

(** sequencing of calls on a state *)
Definition andthen {A C S} (x : outcome A * S) (f : A -> S -> outcome C * S) : outcome C * S :=
  match x with
  | (Ret a, s) => f a s
  | (Raise e, s) => (Raise e, s)
  | (Diverge, s) => (Diverge, s)
  end.
Definition yields {A S} (a : A) (s : S) : outcome A * S := (Ret a, s).

Section Handle.
  Context {S : Type}.
  Variable h : handle S.

  (** is_gzip_file, archive_detect.py:5-8 *)
  Definition h_is_gzip (s : S) : outcome bool * S :=
    andthen (h_read h 2 s) (fun sig s => andthen (h_seek_cur h (- Z.of_nat (py_len sig)) s) (fun _ s => yields (py_is sig GZIP_MAGIC) s)).
  (** the search through archive_types, archive_detect.py:19-24 *)
  Fixpoint h_first_type (l : list (re * rtype)) (line : pystr) : outcome (option rtype) :=
    match l with
    | [] => Ret None
    | (r, t) :: l' => match py_match r line with
                      | Ret true => Ret (Some t)
                      | Ret false => h_first_type l' line
                      | Raise e => Raise e
                      | Diverge => Diverge
                      end
    end.
  (** guess_record_type, archive_detect.py:10-24; [gz_line] is readline of a GzipFile over the handle *)
  Variable gz_line : S -> outcome pystr * S.
  Definition h_guess (s : S) : outcome (option rtype) * S :=
    andthen (h_tell h s) (fun offset s =>
    andthen (h_is_gzip s) (fun gz s =>
    andthen (if gz then gz_line s else h_readline h s) (fun line s =>
    andthen (h_seek h (Z.of_nat offset) s) (fun _ s => (h_first_type archive_types line, s))))).
  (** open_record_stream, stream.py:23-45: which parser and which kind of stream *)
  Definition h_open (c : aclass) (named_gz : bool) (gz : gzmode) (s : S) : outcome (parser * skind) * S :=
    andthen (match c with
             | AWarc => yields PWarc s
             | AArc => yields (PArc arc_init) s
             | AMixed => yields (PMixed arc_init) s
             | AArchive => andthen (h_guess s) (fun t s => match t with
                                                           | Some TWarc => yields PWarc s
                                                           | Some TArc => yields (PArc arc_init) s
                                                           | None => (Raise E_guess, s)
                                                           end)
             end) (fun p s =>
    andthen (match gz with
             | GAuto => if named_gz then yields SGzipRecord s
                        else andthen (h_is_gzip s) (fun b s => yields (if b then SGzipRecord else SPlain) s)
             | GRecord => yields SGzipRecord s
             | GFile => yields SGzipFile s
             | GNone => yields SPlain s
             end) (fun k s => yields (p, k) s)).

  (** the stream's state: bytes_to_eoc and the handle *)
  Definition hstream : Type := option Z * S.
  (** the code of _skip_to_eoc and of the parser on this handle *)
  Variable skip : hstream -> outcome unit * hstream.
  Variable parse : hstream -> option nat -> pystr -> outcome (option record * list perr * option nat) * hstream.
  (** the terminator loop, stream.py:94-99 *)
  Fixpoint h_first_line (fuel : nat) (offsets : bool) (s : S) : outcome (option nat * pystr) * S :=
    match fuel with
    | O => (Diverge, s)
    | Datatypes.S fuel' =>
        andthen (if offsets then andthen (h_tell h s) (fun n s => yields (Some n) s) else yields None s) (fun offset s =>
        andthen (h_readline h s) (fun line s =>
        match py_match crlf_line_rx line with
        | Ret true => h_first_line fuel' offsets s
        | Ret false => yields (offset, line) s
        | Raise e => (Raise e, s)
        | Diverge => (Diverge, s)
        end))
    end.
  (** RecordStream._read_record, stream.py:88-102 *)
  Definition h_read_record (fuel : nat) (offsets : bool) (st : hstream) : outcome item * hstream :=
    andthen (match fst st with Some _ => skip st | None => yields tt st end) (fun _ st =>
    match h_first_line fuel offsets (snd st) with
    | (Ret (offset, line), s) => andthen (parse (None, s) offset line) (fun x st => let '(r, errs, off) := x in yields (off, r, errs) st)
    | (Raise e, s) => (Raise e, (None, s))
    | (Diverge, s) => (Diverge, (None, s))
    end).
  (** for item in read_records(limit, offsets): body   -   stream.py:64-75; [A] is the tool's state (its output) *)
  Fixpoint h_records {A} (fuel lines : nat) (limit : option nat) (offsets : bool)
      (body : A -> hstream -> item -> outcome bool * A * hstream) (a : A) (st : hstream) : outcome unit * A * hstream :=
    match limit with
    | Some O => (Ret tt, a, st)
    | _ =>
      match fuel with
      | O => (Diverge, a, st)
      | Datatypes.S fuel' =>
        match h_read_record lines offsets st with
        | (Ret it, st1) =>
            match body a st1 it with
            | (Ret true, a', st2) =>
                match snd (fst it) with
                | Some _ => h_records fuel' lines (match limit with Some (Datatypes.S n) => Some n | _ => limit end) offsets body a' st2
                | None => (Ret tt, a', st2)
                end
            | (Ret false, a', st2) => (Ret tt, a', st2)
            | (Raise e, a', st2) => (Raise e, a', st2)
            | (Diverge, a', st2) => (Diverge, a', st2)
            end
        | (Raise e, st1) => (Raise e, a, st1)
        | (Diverge, st1) => (Diverge, a, st1)
        end
      end
    end.
  (** for record in stream: body   -   stream.py:77-86 *)
  Fixpoint h_iter {A} (fuel lines : nat) (body : A -> hstream -> record -> outcome unit * A * hstream) (a : A) (st : hstream)
    : outcome unit * A * hstream :=
    match fuel with
    | O => (Diverge, a, st)
    | Datatypes.S fuel' =>
        match h_read_record lines false st with
        | (Ret (_, Some r, _), st1) =>
            match body a st1 r with
            | (Ret _, a', st2) => h_iter fuel' lines body a' st2
            | (Raise e, a', st2) => (Raise e, a', st2)
            | (Diverge, a', st2) => (Diverge, a', st2)
            end
        | (Ret (_, None, errs), st1) =>
            match errs with [] => (Ret tt, a, st1) | _ => (Raise E_decode, a, st1) end
        | (Raise e, st1) => (Raise e, a, st1)
        | (Diverge, st1) => (Diverge, a, st1)
        end
    end.

  (** *** The tools without a file argument: a stream on the handle (gzip=None), and its records one by one.
      [A] is what was written to standard output; the bodies are those of Tools.v and Dump.v. *)
  Definition stdin_open : hstream -> outcome (parser * skind) * hstream :=
    fun st => match h_open AWarc false GNone (snd st) with (o, s) => (o, (fst st, s)) end.
  (** warcdump.py:29, 42-53 *)
  Definition dump_stdin {A} (fuel lines : nat) body (out : A) (s : S) : outcome unit * A * hstream :=
    match stdin_open (None, s) with
    | (Ret _, st) => h_records fuel lines None false body out st
    | (Raise e, st) => (Raise e, out, st)
    | (Diverge, st) => (Diverge, out, st)
    end.
  (** warcextract.py:34-36, 54-63 *)
  Definition extract_stdin {A} (fuel lines : nat) body (out : A) (s : S) : outcome unit * A * hstream :=
    match stdin_open (None, s) with
    | (Ret _, st) => h_records fuel lines (Some 1) false body out st
    | (Raise e, st) => (Raise e, out, st)
    | (Diverge, st) => (Diverge, out, st)
    end.
  (** warc2warc.py:71-75; warcfilter.py:65-67, 78-115 *)
  Definition copy_stdin {A} (fuel lines : nat) body (out : A) (s : S) : outcome unit * A * hstream :=
    match stdin_open (None, s) with
    | (Ret _, st) => h_iter fuel lines body out st
    | (Raise e, st) => (Raise e, out, st)
    | (Diverge, st) => (Diverge, out, st)
    end.
End Handle.

(** a binary file as a handle *)
Definition bin_handle : handle file :=
  mkhandle file (fun f => (Ret (f_tell f), f)) (fun n f => match f_read f n with (o, f') => (omap PBytes o, f') end)
    (fun f => match f_readline f with (l, f') => (Ret (PBytes l), f') end) (fun n f => f_seek f n) (fun n f => f_seek_cur f n).
Definition bin_gz_line (gunzip : bytes -> bytes) (f : file) : outcome pystr * file :=
  (Ret (PBytes (take_line (gunzip (f_rest f)))), f_advance f (List.length (f_rest f))).
Definition as_stream (p : parser) (st : hstream) : stream := mkstream SPlain (snd st) (fst st) p.
Definition of_stream (st : stream) : hstream := (s_eoc st, s_fh st).
Definition bin_skip (p : parser) (st : hstream) : outcome unit * hstream :=
  match skip_to_eoc (as_stream p st) with (o, st') => (o, of_stream st') end.
Definition bin_parse (p : parser) (st : hstream) (offset : option nat) (line : pystr)
  : outcome (option record * list perr * option nat) * hstream :=
  match line with
  | PBytes l => match run_parser (as_stream p st) offset l with (o, st') => (o, of_stream st') end
  | PText _ => (Raise ETypeError, st)
  end.
