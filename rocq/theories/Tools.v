(** The command-line tools that read WARC files: hanzo/warc2warc.py, warcfilter.py,
    warcvalid.py, warcindex.py, warcextract.py, warcpayload.py, warcdump.py.

    Option parsing and s3:// names are not modelled; standard error output is
    not recorded. The stdin modes are in TextMode.v. *)
From Verif Require Export Reader.
From Verif Require Http.
From Coq Require Import String List.
Open Scope list_scope.

(** A named local file given on the command line (expand_files,
    warctools/__init__.py:8-14, passes it through). *)
Record input : Type := mkin { in_name : bytes; in_data : bytes }.

(** ResponseMessage.CONTENT_TYPE, RequestMessage.CONTENT_TYPE, messaging.py:636, 628 *)
Definition HTTP_RESPONSE_TYPE : bytes := Eval vm_compute in B "application/http;msgtype=response".
Definition HTTP_REQUEST_TYPE : bytes := Eval vm_compute in B "application/http;msgtype=request".
Definition APPLICATION_HTTP : bytes := Eval vm_compute in B "application/http".

Definition is_some_eq (o : option bytes) (b : bytes) : bool :=
  match o with Some a => bytes_eqb a b | None => false end.

Section Tools.
  (** GzipFile decompression of an archive (oracle, see Reader.v); of an HTTP body
      (oracles, see Http.v) *)
  Variable gunzip : bytes -> bytes.
  Variable http_gz : bytes -> outcome bytes.
  Variables unzlib ungzip : bytes -> option bytes.

  (** WarcRecord.open_archive(name, gzip="auto") *)
  Definition open_input (i : input) : outcome stream :=
    open_stream gunzip AWarc (endswith (B ".gz") (in_name i)) GAuto (mkfile (in_data i) 0 true).

  (** for name in expand_files(input_files): fh = open_archive(name); ... *)
  Fixpoint over_files {S} (use : S -> bytes -> stream -> outcome unit * S)
      (files : list input) (s : S) : outcome unit * S :=
    match files with
    | [] => (Ret tt, s)
    | i :: t =>
        match open_input i with
        | Ret st =>
            match use s (in_name i) st with
            | (Ret _, s') => over_files use t s'
            | (Raise e, s') => (Raise e, s')
            | (Diverge, s') => (Diverge, s')
            end
        | Raise e => (Raise e, s)
        | Diverge => (Diverge, s)
        end
    end.
  (** for record in fh: body *)
  Definition each_record {S} (body : S -> stream -> record -> outcome unit * S * stream)
      (s : S) (name : bytes) (st : stream) : outcome unit * S :=
    match for_records body s st with (o, s', _) => (o, s') end.
  (** record.write_to(out, gzip=gzip) *)
  Definition emit (gz : option gzipper) (out : bytes) (st : stream) (r : record)
    : outcome unit * bytes * stream :=
    match write_to gz CRLF r st with (o, _, st', d) => (o, out ++ d, st') end.

  (** *** warc2warc *)
  (** what -D does with a response record before it is written, warc2warc.py:36-59:
      the record as it then is.  Header names to ignore (--wget-chunk-fix) are text
      strings and never equal a header name, so none are ignored.  The assignment
      to record.content fails: the property has no setter. *)
  Definition http_message (content_type : option bytes) : option Http.msg :=
    if is_some_eq content_type HTTP_REQUEST_TYPE then Some (Http.new_request [])
    else if is_some_eq content_type HTTP_RESPONSE_TYPE then Some (Http.new_response [] [])
    else None.
  Definition decode_step (content_type : option bytes) (content : bytes) : outcome unit :=
    match http_message content_type with
    | None => Ret tt
    | Some m0 =>
        bind (Http.feed http_gz m0 content) (fun p =>
          let '(m1, leftover) := p in
          let m2 := Http.close m1 in
          match leftover with
          | [] => if Http.complete m2
                  then bind (Http.decoded_message unzlib ungzip m2) (fun _ => Raise EAttributeError)
                  else Ret tt
          | _ => Ret tt
          end)
    end.
  (** process, warc2warc.py:33-61 *)
  Definition w2w_process (gz : option gzipper) (decode : bool)
      (out : bytes) (st : stream) (r : record) : outcome unit * bytes * stream :=
    if decode && is_some_eq (rec_type r) V_RESPONSE then
      match rec_content r st with
      | (Ret (ct, Some content), r', st') =>
          match decode_step ct content with
          | Ret _ => emit gz out st' r'
          | Raise e => (Raise e, out, st')
          | Diverge => (Diverge, out, st')
          end
      | (Ret (_, None), _, st') => (Raise ETypeError, out, st')
      | (Raise e, _, st') => (Raise e, out, st')
      | (Diverge, _, st') => (Diverge, out, st')
      end
    else emit gz out st r.
  (** main, warc2warc.py:63-86, with file names: what is written to stdout *)
  Definition warc2warc (gz : option gzipper) (decode : bool) (files : list input)
    : outcome unit * bytes :=
    over_files (each_record (w2w_process gz decode)) files [].

  (** *** warcfilter *)
  (** the options -U -T -C -H -D, in the order they are tested, or none of them *)
  Inductive fopt : Type := FUrl | FType | FContentType | FHttpType | FDate | FAny.
  (** pattern.search(b) is not None (oracle: any user-supplied pattern) *)
  Variable search : bytes -> bool.
  Definition opt_search (o : option bytes) : bool :=
    match o with
    | Some ((_ :: _) as b) => search b
    | _ => false
    end.
  (** parse_http_response, warcfilter.py:28-46: the media type.  The name logging
      is not defined in this module. *)
  Definition mime_of (hs : list (bytes * bytes)) : option bytes :=
    match filter (fun kv => bytes_eqb (lower (fst kv)) (B "content-type")) hs with
    | (_, v) :: _ => Some (hd [] (split_all 59%N v))
    | [] => None
    end.
  Definition http_mime (content : bytes) : outcome (option bytes) :=
    bind (Http.feed http_gz (Http.new_response [] []) content) (fun p =>
      let '(m1, remainder) := p in
      let m2 := Http.close m1 in
      match remainder with
      | [] => if Http.complete m2 then Ret (mime_of (Http.h_headers (Http.m_head m2)))
              else Raise ENameError
      | _ => Raise ENameError
      end).
  Definition emit_if (b : bool) (out : bytes) (st : stream) (r : record)
    : outcome unit * bytes * stream :=
    if b then emit None out st r else (Ret tt, out, st).
  (** filter_archive, warcfilter.py:78-117, the loop body *)
  Definition filter_record (opt : fopt) (invert : bool) (out : bytes) (st : stream) (r : record)
    : outcome unit * bytes * stream :=
    match opt with
    | FUrl => emit_if (xorb (opt_search (rec_url r)) invert) out st r
    | FType => emit_if (xorb (opt_search (rec_type r)) invert) out st r
    | FContentType =>
        match rec_content_type r st with
        | (Ret ct, r', st') =>
            if truthy ct then
              match rec_content_type r' st' with
              | (Ret ct', r'', st'') => emit_if (xorb (opt_search ct') invert) out st'' r''
              | (Raise e, _, st'') => (Raise e, out, st'')
              | (Diverge, _, st'') => (Diverge, out, st'')
              end
            else emit_if invert out st' r'
        | (Raise e, _, st') => (Raise e, out, st')
        | (Diverge, _, st') => (Diverge, out, st')
        end
    | FHttpType =>
        if is_some_eq (rec_type r) V_RESPONSE then
          match rec_content_type r st with
          | (Ret None, _, st') => (Raise EAttributeError, out, st')
          | (Ret (Some ct), r', st') =>
              if startswith APPLICATION_HTTP ct then
                match rec_content r' st' with
                | (Ret (_, Some content), r'', st'') =>
                    match http_mime content with
                    | Ret mime => emit_if (xorb (opt_search mime) invert) out st'' r''
                    | Raise e => (Raise e, out, st'')
                    | Diverge => (Diverge, out, st'')
                    end
                | (Ret (_, None), _, st'') => (Raise ETypeError, out, st'')
                | (Raise e, _, st'') => (Raise e, out, st'')
                | (Diverge, _, st'') => (Diverge, out, st'')
                end
              else (Ret tt, out, st')
          | (Raise e, _, st') => (Raise e, out, st')
          | (Diverge, _, st') => (Diverge, out, st')
          end
        else (Ret tt, out, st)
    | FDate => emit_if (xorb (opt_search (rec_date r)) invert) out st r
    | FAny =>
        let in_headers := existsb (fun kv => search (snd kv)) (r_headers r) in
        match rec_content r st with
        | (Ret (_, Some content), r', st') =>
            emit_if (xorb (in_headers || search content) invert) out st' r'
        | (Ret (_, None), _, st') => (Raise ETypeError, out, st')
        | (Raise e, _, st') => (Raise e, out, st')
        | (Diverge, _, st') => (Diverge, out, st')
        end
    end.
  (** main, warcfilter.py:48-76, with file names *)
  Definition warcfilter (opt : fopt) (invert : bool) (files : list input) : outcome unit * bytes :=
    over_files (each_record (filter_record opt invert)) files [].

  (** *** warcvalid *)
  (** the loop body, warcvalid.py:38-48; the state is [correct].  The message uses %d,
      which fails for the offset None of a compressed archive. *)
  Definition complain (off : option nat) (st : stream) : outcome bool * bool * stream :=
    match off with
    | Some _ => (Ret false, false, st)
    | None => (Raise ETypeError, false, st)
    end.
  Definition valid_body (correct : bool) (st : stream) (it : item) : outcome bool * bool * stream :=
    match it with
    | (off, Some r, []) =>
        match r_errors r with
        | [] => (Ret true, correct, st)
        | _ => complain off st
        end
    | (off, None, []) => (Ret true, correct, st)
    | (off, _, _) => complain off st
    end.
  Definition valid_file (correct : bool) (name : bytes) (st : stream) : outcome unit * bool :=
    match for_read_records None true valid_body correct st with (o, c, _) => (o, c) end.
  (** main, warcvalid.py:24-61: the exit status *)
  Definition warcvalid (files : list input) : outcome Z :=
    match over_files valid_file files true with
    | (Ret _, true) => Ret 0%Z
    | (Ret _, false) => Ret (-1)%Z
    | (Raise _, _) => Ret (-1)%Z
    | (Diverge, _) => Diverge
    end.

  (** *** warcindex *)
  Definition or_dash (o : option bytes) : bytes := if truthy o then or_empty o else B "-".
  (** str(offset) *)
  Definition show_offset (o : option nat) : bytes :=
    match o with Some n => dec_nat n | None => B "None" end.
  (** the loop body, warcindex.py:40-55 *)
  Definition index_body (name : bytes) (out : bytes) (st : stream) (it : item)
    : outcome bool * bytes * stream :=
    match it with
    | (off, Some r, _) =>
        match rec_content_type r st with
        | (Ret ct, r1, st1) =>
            match rec_content_length r1 st1 with
            | (Ret n, _, st2) =>
                (Ret true,
                 out ++ join (B " ") [name; show_offset off; or_dash (rec_type r); or_dash (rec_url r);
                                      or_dash (rec_id r); or_dash ct; dec_Z n] ++ [LF], st2)
            | (Raise e, _, st2) => (Raise e, out, st2)
            | (Diverge, _, st2) => (Diverge, out, st2)
            end
        | (Raise e, _, st1) => (Raise e, out, st1)
        | (Diverge, _, st1) => (Diverge, out, st1)
        end
    | (_, None, _) => (Ret true, out, st)
    end.
  Definition INDEX_HEADER : bytes := Eval vm_compute in
    B "#WARC filename offset warc-type warc-subject-uri warc-record-id content-type content-length" ++ [LF].
  Definition index_file (out : bytes) (name : bytes) (st : stream) : outcome unit * bytes :=
    match for_read_records None true (index_body name) out st with (o, out', _) => (o, out') end.
  (** main, warcindex.py:24-60 *)
  Definition warcindex (files : list input) : outcome unit * bytes :=
    over_files index_file files INDEX_HEADER.

  (** *** warcextract *)
  (** dump_record, warcextract.py:53-62, the loop body, which always ends in a break.  In
      the error branch the name [name] is not defined. *)
  Definition dump_body (out : bytes) (st : stream) (it : item) : outcome bool * bytes * stream :=
    match it with
    | (_, Some r, _) =>
        match rec_content r st with
        | (Ret (_, Some d), _, st') => (Ret false, out ++ d, st')
        | (Ret (_, None), _, st') => (Raise ETypeError, out, st')
        | (Raise e, _, st') => (Raise e, out, st')
        | (Diverge, _, st') => (Diverge, out, st')
        end
    | (_, None, []) => (Ret false, out, st)
    | (_, None, _) => (Raise ENameError, out, st)
    end.
  (** seek on the stream just opened: RecordStream.seek, stream.py:60-62, or, for a compressed file,
      GzipRecordStream.seek, stream.py:231-235: the compressed file is moved.  Nothing has been read from the
      GzipFile yet, so that it decompresses from there on (for later seeks see GzSeek.v). *)
  Definition first_seek (i : input) (st : stream) (offset : Z) : outcome unit * stream :=
    match s_kind st with
    | SPlain => stream_seek st offset
    | _ => match f_seek (mkfile (in_data i) 0 true) offset with
           | (o, f) => (o, set_fh st (decompressed gunzip f))
           end
    end.
  (** main, warcextract.py:25-51: file name and offset *)
  Definition warcextract (i : input) (offset : Z) : outcome unit * bytes :=
    match open_input i with
    | Ret st =>
        match first_seek i st offset with
        | (Ret _, st1) =>
            match for_read_records (Some 1) false dump_body [] st1 with
            | (o, out, _) => (o, out)
            end
        | (Raise e, _) => (Raise e, [])
        | (Diverge, _) => (Diverge, [])
        end
    | Raise e => (Raise e, [])
    | Diverge => (Diverge, [])
    end.

  (** *** warcpayload *)
  (** http.client.HTTPResponse reading the payload of a record (oracle): what reading
      it to the end gives *)
  Variable http_client : bytes -> outcome bytes.
  (** dump_payload_from_stream, warcpayload.py:38-62.  [length] is only used for s3. *)
  Definition payload_body (out : bytes) (st : stream) (it : item) : outcome bool * bytes * stream :=
    match it with
    | (_, Some r, _) =>
        let copy r st :=
          match copy_loop (cf_fuel (r_cf r) st) (r_cf r) st out with
          | (Ret _, _, st', out') => (Ret true, out', st')
          | (Raise e, _, st', out') => (Raise e, out', st')
          | (Diverge, _, st', out') => (Diverge, out', st')
          end in
        if is_some_eq (rec_type r) V_RESPONSE then
          match rec_content_type r st with
          | (Ret None, _, st') => (Raise EAttributeError, out, st')
          | (Ret (Some ct), r', st') =>
              if startswith APPLICATION_HTTP ct then
                match stream_read st' None with
                | (Ret d, st'') =>
                    match http_client d with
                    | Ret p => (Ret true, out ++ p, st'')
                    | Raise e => (Raise e, out, st'')
                    | Diverge => (Diverge, out, st'')
                    end
                | (Raise e, st'') => (Raise e, out, st'')
                | (Diverge, st'') => (Diverge, out, st'')
                end
              else copy r' st'
          | (Raise e, _, st') => (Raise e, out, st')
          | (Diverge, _, st') => (Diverge, out, st')
          end
        else copy r st
    | (_, None, []) => (Ret true, out, st)
    | (_, None, _) => (Raise ENameError, out, st)
    end.
  (** dump_payload_from_file, warcpayload.py:34-36; stream.py:19-21 seeks before the
      stream is made, so the compression is sniffed at [offset] *)
  Definition warcpayload (i : input) (offset : Z) : outcome unit * bytes :=
    match f_seek (mkfile (in_data i) 0 true) offset with
    | (Ret _, f) =>
        match open_stream gunzip AWarc (endswith (B ".gz") (in_name i)) GAuto f with
        | Ret st => match for_read_records (Some 1) false payload_body [] st with
                    | (o, out, _) => (o, out)
                    end
        | Raise e => (Raise e, [])
        | Diverge => (Diverge, [])
        end
    | (Raise e, _) => (Raise e, [])
    | (Diverge, _) => (Diverge, [])
    end.
End Tools.
