(** Reading an archive from a file whose read calls may fail: an error of the operating
    system, or a compressed archive that is damaged or cut off, for which GzipFile raises
    EOFError, zlib.error or OSError (BadGzipFile).

    The definitions are those of Stream.v, Warc.v, Arc.v, Reader.v and Record.v once more,
    over an arbitrary file whose operations can raise, and cite the same lines.  (PropsFaults.v
    proves that over files that never fail they compute the same.)  [budget] bounds the
    iterations of each loop. *)
From Verif Require Export Tools.
From Coq Require Import String List.
Open Scope list_scope.

(** read(n), read(), readline(), readline(n), tell() *)
Record fops (F : Type) : Type := mkfops {
  q_read : F -> Z -> outcome bytes * F;
  q_read_all : F -> outcome bytes * F;
  q_readline : F -> outcome bytes * F;
  q_readline_lim : F -> Z -> outcome bytes * F;
  q_tell : F -> outcome nat * F }.
Arguments q_read {F}. Arguments q_read_all {F}. Arguments q_readline {F}. Arguments q_readline_lim {F}. Arguments q_tell {F}.

(** a stream over such a file *)
Record fstream (F : Type) : Type := mkfst { x_kind : skind; x_fh : F; x_eoc : option Z; x_parser : parser }.
Arguments mkfst {F}. Arguments x_kind {F}. Arguments x_fh {F}. Arguments x_eoc {F}. Arguments x_parser {F}.

(** sequencing: an exception ends it *)
Definition andthen {A C S} (x : outcome A * S) (f : A -> S -> outcome C * S) : outcome C * S :=
  match x with
  | (Ret a, s) => f a s
  | (Raise e, s) => (Raise e, s)
  | (Diverge, s) => (Diverge, s)
  end.

Section Faulty.
  Context {F : Type}.
  Variable ops : fops F.
  Variable budget : nat.
  Notation fs := (fstream F).

  Definition x_set_fh (st : fs) (f : F) : fs := mkfst (x_kind st) f (x_eoc st) (x_parser st).
  Definition x_set_eoc (st : fs) (e : option Z) : fs := mkfst (x_kind st) (x_fh st) e (x_parser st).
  Definition x_set_parser (st : fs) (p : parser) : fs := mkfst (x_kind st) (x_fh st) (x_eoc st) p.
  Definition x_new (k : skind) (f : F) (p : parser) : fs := mkfst k f None p.
  (** a call on the file *)
  Definition x_on {A} (call : F -> outcome A * F) (st : fs) : outcome A * fs :=
    let '(o, f') := call (x_fh st) in (o, x_set_fh st f').
  (** [self.bytes_to_eoc -= len(result)], stream.py:129-130, 177-178 *)
  Definition x_counted (x : outcome bytes * fs) : outcome bytes * fs :=
    andthen x (fun d st => (Ret d, x_set_eoc st (match x_eoc st with
                                                 | Some e => Some (e - Z.of_nat (List.length d))%Z
                                                 | None => None
                                                 end))).
  (** RecordStream._read, stream.py:122-132 *)
  Definition x_raw_read (st : fs) (count : option Z) : outcome bytes * fs :=
    x_counted (match count with
               | Some n => x_on (fun f => q_read ops f n) st
               | None => x_on (q_read_all ops) st
               end).
  (** stream.py:140-147, 163-170 *)
  Definition x_bounded (st : fs) (count : option Z) : option Z :=
    match x_eoc st, count with
    | Some e, Some c => Some (Z.min c e)
    | Some e, None => Some e
    | None, Some c => Some c
    | None, None => None
    end.
  (** RecordStream.read, stream.py:134-149; readline, stream.py:157-179 *)
  Definition x_read (st : fs) (count : option Z) : outcome bytes * fs := x_raw_read st (x_bounded st count).
  Definition x_readline (st : fs) (maxlen : option Z) : outcome bytes * fs :=
    x_counted (match x_bounded st maxlen with
               | Some lim => x_on (fun f => q_readline_lim ops f lim) st
               | None => x_on (q_readline ops) st
               end).
  (** RecordStream._skip_to_eoc, stream.py:112-120 *)
  Fixpoint x_skip_loop (fuel : nat) (st : fs) : outcome unit * fs :=
    match fuel with
    | O => (Diverge, st)
    | S fuel' =>
        match x_eoc st with
        | None => (Raise E_unset, st)
        | Some e =>
            if Z.ltb 0 e then
              let read_size := Z.min CHUNK_SIZE e in
              andthen (x_raw_read st (Some read_size)) (fun buf st' =>
                if Z.ltb (Z.of_nat (List.length buf)) read_size then (Raise E_short, st') else x_skip_loop fuel' st')
            else (Ret tt, st)
        end
    end.
  (** the terminator loop, stream.py:94-99 *)
  Fixpoint x_blank_loop (fuel : nat) (st : fs) : outcome (nat * bytes) * fs :=
    match fuel with
    | O => (Diverge, st)
    | S fuel' =>
        andthen (x_on (q_tell ops) st) (fun offset st1 =>
        andthen (x_on (q_readline ops) st1) (fun line st2 =>
          if re_test crlf_line_rx line then x_blank_loop fuel' st2 else (Ret (offset, line), st2)))
    end.

  (** the WARC parser, warc.py:179-281 *)
  Fixpoint x_find_version (fuel : nat) (st : fs) (line : bytes) (offset : option nat) (errors : list perr)
    : outcome found * fs :=
    match fuel with
    | O => (Diverge, st)
    | S fuel' =>
        match line with
        | [] => (Ret (FNone (None, errors, offset)), st)
        | _ =>
            match re_match version_rx line with
            | Some g => (Ret (FVersion g (add_off offset (List.length (group g_prefix g))) errors), st)
            | None =>
                let offset' := add_off offset (List.length line) in
                let next errs := andthen (x_readline st None) (fun line' st' => x_find_version fuel' st' line' offset' errs) in
                if re_test nl_rx line then next errors
                else
                  let errors' := errors ++ [ErrIgnored line] in
                  if Nat.ltb bad_lines (List.length errors')
                  then (Ret (FNone (None, errors' ++ [ErrTooMany], offset')), st)
                  else next errors'
            end
        end
    end.
  Fixpoint x_follow_loop (fuel : nat) (st : fs) (line : bytes) (values : list bytes) (errors : list perr)
    : outcome (list bytes * list perr * bytes) * fs :=
    match fuel with
    | O => (Diverge, st)
    | S fuel' =>
        match re_match value_rx line with
        | None => (Ret (values, errors, line), st)
        | Some g =>
            let errors' := if bytes_eqb (group g_nl g) CRLF then errors else errors ++ [ErrFollowNl line (group g_nl g)] in
            andthen (x_readline st None) (fun line' st' =>
              x_follow_loop fuel' st' line' (values ++ [strip (group g_value g)]) errors')
        end
    end.
  Fixpoint x_header_loop (fuel : nat) (st : fs) (line : bytes) (headers : list header) (errors : list perr) (clen : Z)
    : outcome (list header * list perr * Z) * fs :=
    match fuel with
    | O => (Diverge, st)
    | S fuel' =>
        match line with
        | [] => (Ret (headers, errors, clen), st)
        | _ =>
          if re_test nl_rx line then (Ret (headers, errors, clen), st)
          else
            match re_match header_rx line with
            | None => x_header_loop fuel' st line headers errors clen
            | Some g =>
                let errors1 := if bytes_eqb (group g_nl g) CRLF then errors else errors ++ [ErrHeaderNl (group g_nl g)] in
                let name := strip (group g_name g) in
                andthen (x_readline st None) (fun line1 st1 =>
                andthen (x_follow_loop fuel' st1 line1 [strip (group g_value g)] errors1) (fun p st2 =>
                  let '(values, errors2, line2) := p in
                  let value := join [32%N] values in
                  let '(errors3, clen') := note_header name value errors2 clen in
                  x_header_loop fuel' st2 line2 (headers ++ [(name, value)]) errors3 clen'))
            end
        end
    end.
  Definition x_warc_parse (st : fs) (offset : option nat) (line : bytes) : outcome parsed * fs :=
    andthen (x_find_version budget st line offset []) (fun fd st1 =>
      match fd with
      | FNone p => (Ret p, st1)
      | FVersion g offset' errors =>
          let errors1 := if bytes_eqb (group g_nl g) CRLF then errors else errors ++ [ErrVersionNl (group g_nl g)] in
          if in_list (group g_number g) KNOWN_VERSIONS then
            let errors2 := match group g_prefix g with
                           | [] => errors1
                           | pfx => errors1 ++ [ErrPrefix pfx]
                           end in
            andthen (x_readline st1 None) (fun line1 st2 =>
            andthen (x_header_loop budget st2 line1 [] errors2 0%Z) (fun p st3 =>
              let '(headers, errors3, clen) := p in
              (Ret (Some (mkrec (RWarc (group g_version g)) headers errors3 None CF_stream true), [], offset'),
               x_set_eoc st3 (Some clen))))
          else (Raise ETypeError, st1)
      end).

  (** the ARC parser, arc.py:89-154; the parser state is part of the stream's state *)
  Fixpoint x_arc_blank_loop (fuel : nat) (st : fs) (line : bytes) : outcome (option bytes) * fs :=
    match fuel with
    | O => (Diverge, st)
    | S fuel' =>
        match rstrip line with
        | [] => match line with
                | [] => (Ret None, st)
                | _ => andthen (x_readline st None) (fun line' st' => x_arc_blank_loop fuel' st' line')
                end
        | _ => (Ret (Some line), st)
        end
    end.
  Definition x_lift {A} (o : outcome A) (st : fs) : outcome A * fs := (o, st).
  (** [put]: storing the parser state *)
  Definition x_arc_parse (put : arcstate -> parser) (a : arcstate) (st : fs) (offset : option nat) (line : bytes)
    : outcome parsed * fs :=
    andthen (x_arc_blank_loop budget st line) (fun l st1 =>
      match l with
      | None => (Ret (None, [], offset), st1)
      | Some line1 =>
        if startswith FILEDESC line1 then
          andthen (x_readline st1 None) (fun version_line st2 =>
          andthen (x_readline st2 None) (fun names_line st3 =>
            let raw_headers := [line1; version_line; names_line] in
            let arc_version := strip version_line in
            match split_ws arc_version with
            | [] => (Raise EIndexError, st3)
            | v0 :: _ =>
                let a' := mkarc v0 (split_ws (strip names_line)) in
                let st4 := x_set_parser st3 (put a') in
                andthen (x_lift (arc_header_list (a_headers a') line1) st4) (fun hs st5 =>
                  let '(clen, errors) := arc_content_headers hs None [] in
                  match clen with
                  | None => (Raise ETypeError, st5)
                  | Some n =>
                      let n' := (n - Z.of_nat (List.length version_line) - Z.of_nat (List.length names_line))%Z in
                      (Ret (Some (mkrec (RArcHeader arc_version raw_headers) hs errors None CF_stream true), [], offset),
                       x_set_eoc st5 (Some n'))
                  end)
            end))
        else
          match a_headers a with
          | [] => (Raise E_filedesc, st1)
          | _ =>
              andthen (x_lift (arc_header_list (a_headers a) line1) st1) (fun hs st2 =>
                let '(clen, errors) := arc_content_headers hs None [] in
                (Ret (Some (mkrec RArc hs errors None CF_stream true), [], offset), x_set_eoc st2 clen))
          end
      end).
  (** MixedParser.parse, mixed.py:17-28 *)
  Fixpoint x_mixed_loop (fuel : nat) (a : arcstate) (st : fs) (offset : option nat) (line : bytes) : outcome parsed * fs :=
    match fuel with
    | O => (Diverge, st)
    | S fuel' =>
        match line with
        | [] => (Ret (None, [], offset), st)
        | _ =>
            if startswith WARC_PREFIX line then x_warc_parse st offset line
            else if negb (in_list line [[10%N]; CRLF; [13%N]]) then x_arc_parse PMixed a st offset line
            else andthen (x_readline st None) (fun line' st' => x_mixed_loop fuel' a st' offset line')
        end
    end.
  Definition x_run_parser (st : fs) (offset : option nat) (line : bytes) : outcome parsed * fs :=
    match x_parser st with
    | PWarc => x_warc_parse st offset line
    | PArc a => x_arc_parse PArc a st offset line
    | PMixed a => x_mixed_loop budget a st offset line
    end.

  (** _read_record, stream.py:88-102, 213-229, 242-257 *)
  Definition x_read_record (st : fs) (offsets : bool) : outcome item * fs :=
    andthen (match x_eoc st with Some _ => x_skip_loop budget st | None => (Ret tt, st) end) (fun _ st1 =>
    andthen (x_blank_loop budget (x_set_eoc st1 None)) (fun p st2 =>
      let '(pos, line) := p in
      let offset := match x_kind st with SPlain => if offsets then Some pos else None | _ => None end in
      andthen (x_run_parser st2 offset line) (fun q st3 =>
        let '(r, errs, offset') := q in
        match x_kind st with
        | SPlain => (Ret (offset', r, errs), st3)
        | SGzipRecord => (Ret (None, r, errs), st3)
        | SGzipFile => (Raise ENameError, st3)
        end))).

  (** read_records, stream.py:64-75, in a for loop; see [read_loop] in Reader.v *)
  Fixpoint x_read_loop {T} (fuel : nat) (limit : option nat) (offsets : bool)
      (body : T -> fs -> item -> outcome bool * T * fs) (s : T) (st : fs) : outcome unit * T * fs :=
    match limit with
    | Some O => (Ret tt, s, st)
    | _ =>
      match fuel with
      | O => (Diverge, s, st)
      | S fuel' =>
        match x_read_record st offsets with
        | (Ret it, st1) =>
            match body s st1 it with
            | (Ret true, s', st2) =>
                match snd (fst it) with
                | Some _ => x_read_loop fuel' (match limit with Some (S n) => Some n | _ => limit end) offsets body s' st2
                | None => (Ret tt, s', st2)
                end
            | (Ret false, s', st2) => (Ret tt, s', st2)
            | (Raise e, s', st2) => (Raise e, s', st2)
            | (Diverge, s', st2) => (Diverge, s', st2)
            end
        | (Raise e, st1) => (Raise e, s, st1)
        | (Diverge, st1) => (Diverge, s, st1)
        end
      end
    end.
  Definition x_for_read_records {T} (limit : option nat) (offsets : bool)
      (body : T -> fs -> item -> outcome bool * T * fs) (s : T) (st : fs) : outcome unit * T * fs :=
    x_read_loop budget limit offsets body s st.
  (** for record in stream, stream.py:77-86 *)
  Fixpoint x_iter_loop {T} (fuel : nat) (body : T -> fs -> record -> outcome unit * T * fs) (s : T) (st : fs)
    : outcome unit * T * fs :=
    match fuel with
    | O => (Diverge, s, st)
    | S fuel' =>
        match x_read_record st false with
        | (Ret (_, Some r, _), st1) =>
            match body s st1 r with
            | (Ret _, s', st2) => x_iter_loop fuel' body s' st2
            | (Raise e, s', st2) => (Raise e, s', st2)
            | (Diverge, s', st2) => (Diverge, s', st2)
            end
        | (Ret (_, None, errs), st1) => match errs with [] => (Ret tt, s, st1) | _ => (Raise E_decode, s, st1) end
        | (Raise e, st1) => (Raise e, s, st1)
        | (Diverge, st1) => (Diverge, s, st1)
        end
    end.
  Definition x_for_records {T} (body : T -> fs -> record -> outcome unit * T * fs) (s : T) (st : fs)
    : outcome unit * T * fs := x_iter_loop budget body s st.

  (** calls on a record's content *)
  Definition x_run_cop (st : fs) (o : cop) : outcome bytes * fs :=
    match o with OpRead n => x_read st n | OpReadline n => x_readline st n end.

  (** the copy loop of WarcRecord._write_to, warc.py:97-100, for a record read from this stream *)
  Fixpoint x_copy_loop (fuel : nat) (st : fs) (out : bytes) : outcome unit * bytes * fs :=
    match fuel with
    | O => (Diverge, out, st)
    | S fuel' =>
        match x_read st (Some CHUNK_SIZE) with
        | (Ret [], st') => (Ret tt, out, st')
        | (Ret buf, st') => x_copy_loop fuel' st' (out ++ buf)
        | (Raise e, st') => (Raise e, out, st')
        | (Diverge, st') => (Diverge, out, st')
        end
    end.
  (** record.write_to(out) without compression, for a record just read from this stream:
      record.py:167-185, warc.py:76-127, arc.py:38-40 *)
  Definition x_emit (out : bytes) (st : fs) (r : record) : outcome unit * bytes * fs :=
    match r_class r with
    | RWarc v =>
        let head := v ++ CRLF ++ write_headers true CRLF (r_headers r) ++ CRLF in
        match x_copy_loop budget st (out ++ head) with
        | (Ret _, out', st') => (Ret tt, out' ++ CRLF ++ CRLF, st')
        | x => x
        end
    | _ => (Ret tt, out, st)
    end.

  (** warcvalid on one file, warcvalid.py:24-61: the loop body (see [valid_body] in Tools.v) and
      the exit status *)
  Definition x_valid_body (correct : bool) (st : fs) (it : item) : outcome bool * bool * fs :=
    let complain (off : option nat) := match off with Some _ => (Ret false, false, st) | None => (Raise ETypeError, false, st) end in
    match it with
    | (off, Some r, []) => match r_errors r with [] => (Ret true, correct, st) | _ => complain off end
    | (off, None, []) => (Ret true, correct, st)
    | (off, _, _) => complain off
    end.
  Definition x_warcvalid (st : fs) : outcome Z :=
    match x_for_read_records None true x_valid_body true st with
    | (Ret _, true, _) => Ret 0%Z
    | (Ret _, false, _) => Ret (-1)%Z
    | (Raise _, _, _) => Ret (-1)%Z
    | (Diverge, _, _) => Diverge
    end.
End Faulty.

(** files that never fail *)
Definition plain_ops : fops file := mkfops file
  f_read
  (fun f => let '(d, f') := f_read_all f in (Ret d, f'))
  (fun f => let '(d, f') := f_readline f in (Ret d, f'))
  (fun f n => let '(d, f') := f_readline_lim f n in (Ret d, f'))
  (fun f => (Ret (f_tell f), f)).

(** ** A file of which only the first bytes can be read: the rest of a compressed archive was
    lost (the crawler was killed, the transfer broke off) or is damaged.  [c_file] holds the
    bytes that can be decompressed; a call that they do not satisfy raises [c_exn].  (What
    such a call leaves behind is not modelled: nothing looks at it.) *)
Record cutfile : Type := mkcut { c_file : file; c_exn : exn }.
Definition with_file {A} (c : cutfile) (x : outcome A * file) : outcome A * cutfile :=
  let '(o, f') := x in (o, mkcut f' (c_exn c)).
(** the bytes left satisfy read(n) for n >= 0; readline() and readline(n) *)
Definition enough (c : cutfile) (n : Z) : bool := Z.leb n (Z.of_nat (List.length (f_rest (c_file c)))).
Definition line_there (c : cutfile) : bool := existsb (N.eqb 10) (f_rest (c_file c)).
Definition cut_ops : fops cutfile := mkfops cutfile
  (fun c n => if Z.ltb n 0
              then if Z.eqb n (-1) || negb (f_strict (c_file c)) then (Raise (c_exn c), c) else (Raise EValueError, c)
              else if enough c n then with_file c (f_read (c_file c) n) else (Raise (c_exn c), c))
  (fun c => (Raise (c_exn c), c))
  (fun c => if line_there c then with_file c (let '(l, f') := f_readline (c_file c) in (Ret l, f')) else (Raise (c_exn c), c))
  (fun c n => if line_there c || (Z.leb 0 n && enough c n)
              then with_file c (let '(l, f') := f_readline_lim (c_file c) n in (Ret l, f')) else (Raise (c_exn c), c))
  (fun c => (Ret (f_tell (c_file c)), c)).
(** WarcRecord.open_archive(name) etc. of a compressed archive of which [text] can be decompressed *)
Definition open_cut (p : parser) (text : bytes) (e : exn) : fstream cutfile := x_new SGzipRecord (mkcut (mkfile text 0 true) e) p.
