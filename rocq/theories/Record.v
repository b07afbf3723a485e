(** Archive records: headers, lazily read content, writing.
    Models hanzo/warctools/record.py and WarcRecord of hanzo/warctools/warc.py. *)
From Verif Require Export Stream.
From Coq Require Import String List.
Open Scope list_scope.

(** ** Error tuples collected while parsing (warc.py:203-271, arc.py:183-192) *)
Inductive perr : Type :=
| ErrIgnored (line : bytes)             (* ('ignored line', line) *)
| ErrTooMany                            (* ('too many errors, giving up hope',) *)
| ErrNoHeaders (version : bytes)        (* ('warc version but no headers', version) *)
| ErrVersionNl (nl : bytes)             (* ('incorrect newline in version', nl) *)
| ErrPrefix (prefix : bytes)            (* ('bad prefix on WARC version header', prefix) *)
| ErrHeaderNl (nl : bytes)              (* ('incorrect newline in header', nl) *)
| ErrFollowNl (line nl : bytes)         (* ('incorrect newline in follow header', line, nl) *)
| ErrInvalid (name value : bytes).      (* ('invalid header', name, value) *)

(** ** A file-like object supplied by the caller as content_file: the pieces its
    read calls will return.  read(n) returns at most n bytes and may return
    fewer than are left (short reads); an empty result means end of file. *)
Definition reader : Type := list bytes.
Definition rd_read (r : reader) (n : nat) : bytes * reader :=
  match r with
  | [] => ([], [])
  | p :: ps => if Nat.leb (List.length p) n then (p, ps)
               else (firstn n p, skipn n p :: ps)
  end.
Definition rd_read_all (r : reader) : bytes := concat r.

(** content_file: attribute missing (ArcRecord built by hand), None, the record
    stream itself (set by the parsers), or a caller's file. *)
Inductive cfile : Type := CF_unset | CF_none | CF_stream | CF_own (r : reader).

(** Which class the record is an instance of. *)
Inductive rclass : Type :=
| RWarc (version : bytes)                              (* WarcRecord, warc.py:31 *)
| RArc                                                 (* ArcRecord, arc.py:26 *)
| RArcHeader (version : bytes) (raw_headers : list bytes). (* ArcRecordHeader, arc.py:47 *)

Definition header : Type := bytes * bytes.

(** record.py:40-43 and warc.py:68-70.  [r_content] is the tuple
    (content_type, content); either part may be None. *)
Record record : Type := mkrec {
  r_class : rclass;
  r_headers : list header;
  r_errors : list perr;
  r_content : option (option bytes * option bytes);
  r_cf : cfile;
  r_valid : bool }.

Definition with_headers (r : record) (h : list header) : record :=
  mkrec (r_class r) h (r_errors r) (r_content r) (r_cf r) (r_valid r).
Definition with_content (r : record) c : record :=
  mkrec (r_class r) (r_headers r) (r_errors r) (Some c) (r_cf r) (r_valid r).
(** content_file setter, record.py:84-87 *)
Definition with_cf (r : record) (c : cfile) : record :=
  mkrec (r_class r) (r_headers r) (r_errors r) (r_content r) c
        (match c with CF_none | CF_unset => false | _ => true end).
Definition with_valid (r : record) (v : bool) : record :=
  mkrec (r_class r) (r_headers r) (r_errors r) (r_content r) (r_cf r) v.

(** WarcRecord(version, headers, content, errors, content_file), warc.py:53-70 *)
Definition new_warc (version : bytes) (headers : list header)
    (content : option (option bytes * option bytes)) (errors : list perr)
    (cf : cfile) : record :=
  with_cf (mkrec (RWarc version) headers errors content CF_none false) cf.

(** ** Header names: warc.py:13-30, arc.py:14-25 *)
Definition CONTENT_TYPE : bytes := Eval vm_compute in B "Content-Type".
Definition CONTENT_LENGTH : bytes := Eval vm_compute in B "Content-Length".
Definition WARC_TYPE : bytes := Eval vm_compute in B "WARC-Type".
Definition WARC_ID : bytes := Eval vm_compute in B "WARC-Record-ID".
Definition WARC_DATE : bytes := Eval vm_compute in B "WARC-Date".
Definition WARC_URL : bytes := Eval vm_compute in B "WARC-Target-URI".
Definition WARC_CONCURRENT_TO : bytes := Eval vm_compute in B "WARC-Concurrent-To".
Definition WARC_REFERS_TO : bytes := Eval vm_compute in B "WARC-Refers-To".
Definition WARC_IP : bytes := Eval vm_compute in B "WARC-IP-Address".
Definition WARC_FILENAME : bytes := Eval vm_compute in B "WARC-Filename".
Definition WARC_WARCINFO_ID : bytes := Eval vm_compute in B "WARC-Warcinfo-ID".
Definition ARC_URL : bytes := Eval vm_compute in B "URL".
Definition ARC_IP : bytes := Eval vm_compute in B "IP-address".
Definition ARC_DATE : bytes := Eval vm_compute in B "Archive-date".
Definition ARC_CONTENT_TYPE : bytes := Eval vm_compute in B "Content-type".
Definition ARC_CONTENT_LENGTH : bytes := Eval vm_compute in B "Archive-length".
(** warc.py:38-47 *)
Definition V_RESPONSE : bytes := Eval vm_compute in B "response".
Definition V_RESOURCE : bytes := Eval vm_compute in B "resource".
Definition V_REQUEST : bytes := Eval vm_compute in B "request".
Definition V_METADATA : bytes := Eval vm_compute in B "metadata".
Definition V_CONVERSION : bytes := Eval vm_compute in B "conversion".
Definition V_WARCINFO : bytes := Eval vm_compute in B "warcinfo".
Definition V_FILEDESC : bytes := Eval vm_compute in B "filedesc".
Definition VERSION10 : bytes := Eval vm_compute in B "WARC/1.0".

Definition is_warc (r : record) : bool :=
  match r_class r with RWarc _ => true | _ => false end.
(** self.CONTENT_TYPE etc. depend on the class *)
Definition ct_name (r : record) : bytes := if is_warc r then CONTENT_TYPE else ARC_CONTENT_TYPE.
Definition cl_name (r : record) : bytes := if is_warc r then CONTENT_LENGTH else ARC_CONTENT_LENGTH.
Definition url_name (r : record) : bytes := if is_warc r then WARC_URL else ARC_URL.
Definition date_name (r : record) : bytes := if is_warc r then WARC_DATE else ARC_DATE.

(** ArchiveRecord.get_header, record.py:132-137 *)
Fixpoint lookup_header (name : bytes) (hs : list header) : option bytes :=
  match hs with
  | [] => None
  | (k, v) :: t => if bytes_eqb (lower name) (lower k) then Some v else lookup_header name t
  end.
Definition get_header (r : record) (name : bytes) : option bytes :=
  lookup_header name (r_headers r).

(** ArchiveRecord.set_header, record.py:139-141 *)
Definition set_header (r : record) (name value : bytes) : record :=
  with_headers r
    (filter (fun kv => negb (bytes_eqb (fst kv) name)) (r_headers r) ++ [(name, value)]).

(** record.url, record.date: record.py:47-49, 128-130; record.id: warc.py:72-74;
    record.type: record.py:54-56, arc.py:34-36, arc.py:55-57 *)
Definition rec_url (r : record) : option bytes := get_header r (url_name r).
Definition rec_date (r : record) : option bytes := get_header r (date_name r).
Definition rec_id (r : record) : option bytes := get_header r WARC_ID.
Definition rec_type (r : record) : option bytes :=
  match r_class r with
  | RWarc _ => get_header r WARC_TYPE
  | RArc => Some V_RESPONSE
  | RArcHeader _ _ => Some V_FILEDESC
  end.

(** ArchiveRecord.content, record.py:89-102.  The [finally] clause clears
    content_file even when the read raises. *)
Definition rec_content (r : record) (st : stream)
  : outcome (option bytes * option bytes) * record * stream :=
  match r_content r with
  | Some c => (Ret c, r, st)
  | None =>
      let ct := get_header r (ct_name r) in
      match r_cf r with
      | CF_unset | CF_none => (Raise EAttributeError, with_cf r CF_none, st)
      | CF_stream =>
          match stream_read st None with
          | (Ret d, st') =>
              let c := (ct, Some d) in
              (Ret c, with_cf (with_content r c) CF_none, st')
          | (Raise e, st') => (Raise e, with_cf r CF_none, st')
          | (Diverge, st') => (Diverge, with_cf r CF_none, st')
          end
      | CF_own rd =>
          let c := (ct, Some (rd_read_all rd)) in
          (Ret c, with_cf (with_content r c) CF_none, st)
      end
  end.

(** ArchiveRecord.content_type, record.py:104-114 *)
Definition rec_content_type (r : record) (st : stream)
  : outcome (option bytes) * record * stream :=
  let slow := match rec_content r st with
              | (o, r', st') => (omap fst o, r', st')
              end in
  match r_content r with
  | None => match get_header r (ct_name r) with
            | Some ct => (Ret (Some ct), r, st)
            | None => slow
            end
  | Some _ => slow
  end.

(** ArchiveRecord.content_length, record.py:116-126 *)
Definition rec_content_length (r : record) (st : stream)
  : outcome Z * record * stream :=
  let slow := match rec_content r st with
              | (o, r', st') =>
                  (bind o (fun c => match snd c with
                                    | Some d => Ret (Z.of_nat (List.length d))
                                    | None => Raise ETypeError
                                    end), r', st')
              end in
  match r_content r with
  | None => match get_header r (cl_name r) with
            | Some cl => (match py_int 10 cl with
                          | Some n => Ret n
                          | None => Raise EValueError
                          end, r, st)
            | None => slow
            end
  | Some _ => slow
  end.

(** ** Writing *)

(** content_file.read(8192) *)
Definition cf_read (c : cfile) (st : stream) (n : nat) : outcome bytes * cfile * stream :=
  match c with
  | CF_stream => match stream_read st (Some (Z.of_nat n)) with
                 | (o, st') => (o, c, st')
                 end
  | CF_own rd => let '(d, rd') := rd_read rd n in (Ret d, CF_own rd', st)
  | CF_none | CF_unset => (Raise EAttributeError, c, st)
  end.

(** the copy loop, warc.py:97-100; [out] is what has been written so far *)
Fixpoint copy_loop (fuel : nat) (c : cfile) (st : stream) (out : bytes)
  : outcome unit * cfile * stream * bytes :=
  match fuel with
  | O => (Diverge, c, st, out)
  | S fuel' =>
      match cf_read c st (Z.to_nat CHUNK_SIZE) with
      | (Ret [], c', st') => (Ret tt, c', st', out)
      | (Ret buf, c', st') => copy_loop fuel' c' st' (out ++ buf)
      | (Raise e, c', st') => (Raise e, c', st', out)
      | (Diverge, c', st') => (Diverge, c', st', out)
      end
  end.
Definition cf_fuel (c : cfile) (st : stream) : nat :=
  match c with
  | CF_own rd => S (List.length (concat rd) + List.length rd)
  | _ => file_fuel (s_fh st)
  end.

(** one header line, warc.py:90-93 *)
Definition header_line (nl : bytes) (kv : header) : bytes :=
  fst kv ++ [58; 32]%N ++ snd kv ++ nl.

(** the header block, warc.py:88-93: with a content file every header is
    written, otherwise those named exactly Content-Type / Content-Length are left out *)
Definition keeps_header (from_file : bool) (kv : header) : bool :=
  from_file || negb (bytes_eqb (fst kv) CONTENT_TYPE || bytes_eqb (fst kv) CONTENT_LENGTH).
Definition write_headers (from_file : bool) (nl : bytes) (hs : list header) : bytes :=
  concat (map (header_line nl) (filter (keeps_header from_file) hs)).

(** has content_file is not None *)
Definition has_cf (r : record) : bool :=
  match r_cf r with CF_stream | CF_own _ => true | _ => false end.

(** [if content_type:], [if content_buffer:] - truth of an optional bytes *)
Definition truthy (o : option bytes) : bool :=
  match o with Some (_ :: _) => true | _ => false end.
Definition or_empty (o : option bytes) : bytes :=
  match o with Some b => b | None => [] end.

(** WarcRecord._write_to, warc.py:76-127.  Returns what was written (also when
    it raised half way). *)
Definition warc_write (version nl : bytes) (r : record) (st : stream)
  : outcome unit * record * stream * bytes :=
  let out1 := version ++ nl ++ write_headers (has_cf r) nl (r_headers r) in
  if has_cf r then
    match copy_loop (cf_fuel (r_cf r) st) (r_cf r) st (out1 ++ nl) with
    | (Ret _, c', st', out2) =>
        (Ret tt, with_valid (with_cf r c') (r_valid r), st', out2 ++ nl ++ nl)
    | (Raise e, c', st', out2) => (Raise e, with_valid (with_cf r c') (r_valid r), st', out2)
    | (Diverge, c', st', out2) => (Diverge, with_valid (with_cf r c') (r_valid r), st', out2)
    end
  else
    match rec_content r st with
    | (Ret (ct, buf), r', st') =>
        let out2 := if truthy ct then CONTENT_TYPE ++ [58; 32]%N ++ or_empty ct ++ nl else [] in
        let body := or_empty buf in
        let out3 := CONTENT_LENGTH ++ [58; 32]%N ++ dec_nat (List.length body) ++ nl in
        (Ret tt, r', st', out1 ++ out2 ++ out3 ++ nl ++ body ++ nl ++ nl)
    | (Raise e, r', st') => (Raise e, r', st', out1)
    | (Diverge, r', st') => (Diverge, r', st', out1)
    end.

(** ArchiveRecord._write_to dispatch: WarcRecord writes, ArcRecord._write_to is
    empty (arc.py:38-40). *)
Definition rec_write (nl : bytes) (r : record) (st : stream)
  : outcome unit * record * stream * bytes :=
  match r_class r with
  | RWarc v => warc_write v nl r st
  | _ => (Ret tt, r, st, [])
  end.

Definition E_used : exn := EException [117%N].
  (* 'cannot write record because content_file has already been used' *)

(** ArchiveRecord.write_to, record.py:167-185, uncompressed and compressed.
    [gz = None]: gzip=False.  [gz = Some g]: gzip=True, where [member g d] is the gzip member
    GzipFile writes for contents [d], and [torn g d] what has reached [out] when writing stops
    with an exception after [d] and the unfinished GzipFile is thrown away (oracles; CPython
    finishes the member then, so that [torn g d] is a member holding [d]). *)
Record gzipper : Type := mkgz { member :> bytes -> bytes; torn : bytes -> bytes }.
Definition write_to (gz : option gzipper) (nl : bytes) (r : record) (st : stream)
  : outcome unit * record * stream * bytes :=
  match r_cf r with
  | CF_unset => (Raise EAttributeError, r, st, [])
  | _ =>
    if has_cf r && negb (r_valid r) then (Raise E_used, r, st, [])
    else
      match rec_write nl r st with
      | (Ret _, r', st', out) =>
          (Ret tt, if has_cf r' then with_valid r' false else r', st',
           match gz with None => out | Some deflate => deflate out end)
      | (Raise e, r', st', out) =>
          (Raise e, r', st', match gz with None => out | Some g => torn g out end)
      | (Diverge, r', st', out) =>
          (Diverge, r', st', match gz with None => out | Some g => torn g out end)
      end
  end.


(** ArcRecordHeader.raw, arc.py:59-61 *)
Definition arc_raw (r : record) (st : stream) : outcome bytes * record * stream :=
  match r_class r with
  | RArcHeader _ raws =>
      match rec_content r st with
      | (Ret (_, Some d), r', st') => (Ret (concat raws ++ d), r', st')
      | (Ret (_, None), r', st') => (Raise ETypeError, r', st')
      | (Raise e, r', st') => (Raise e, r', st')
      | (Diverge, r', st') => (Diverge, r', st')
      end
  | _ => (Raise EAttributeError, r, st)
  end.
