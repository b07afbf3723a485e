(** Converting ARC archives to WARC: hanzo/arc2warc.py. *)
From Verif Require Export Tools Dates.
From Verif Require Http.
From Coq Require Import String List.
Open Scope list_scope.

(** An element of --resource / --response: a byte string (when ArcTransformer is used
    from Python), or a text string (from the command line), on which
    bytes.startswith raises TypeError. *)
Inductive uprefix : Type := PBytes (p : bytes) | PText.
(** any(url.startswith(p) for p in prefixes) *)
Fixpoint any_prefix (ps : list uprefix) (url : bytes) : outcome bool :=
  match ps with
  | [] => Ret false
  | PText :: _ => Raise ETypeError
  | PBytes p :: ps' => if startswith p url then Ret true else any_prefix ps' url
  end.

(** A WarcRecord made by the converter: (headers, content tuple).  A header value
    [None] is one that is not a byte string (None, or the text of the output file
    name): writing it raises TypeError. *)
Record draft : Type := mkdraft { df_headers : list (bytes * option bytes); df_type : bytes; df_body : bytes }.
(** the headers before the first one that cannot be written, and whether there is one *)
Fixpoint writable (hs : list (bytes * option bytes)) : list header * bool :=
  match hs with
  | [] => ([], true)
  | (n, Some v) :: t => let '(l, ok) := writable t in ((n, v) :: l, ok)
  | (_, None) :: _ => ([], false)
  end.
(** warcrecord.write_to(out, gzip) of a draft, warc.py:76-127: the headers up to the
    bad value are written before TypeError is raised. *)
Definition write_draft (gz : option gzipper) (out : bytes) (st : stream) (d : draft)
  : outcome unit * bytes * stream :=
  let '(hs, ok) := writable (df_headers d) in
  if ok then emit gz out st (new_warc VERSION10 hs (Some (Some (df_type d), Some (df_body d))) [] CF_none)
  else (Raise ETypeError,
        out ++ (let d := VERSION10 ++ CRLF ++ write_headers false CRLF hs in match gz with None => d | Some g => torn g d end), st).

Section Convert.
  Variable gunzip : bytes -> bytes.
  Variable http_gz : bytes -> outcome bytes.
  (** ArcTransformer.make_warc_uuid, arc2warc.py:60-62: a function of the text (SHA-1
      and uuid formatting are not modelled) *)
  Variable make_uuid : bytes -> bytes.
  (** datetime.datetime.now(), the n-th time it is asked *)
  Variable clock : nat -> datetime.

  (** is_http_response, arc2warc.py:44-48 *)
  Definition is_http_response (content : bytes) : outcome bool :=
    bind (Http.feed http_gz (Http.new_response [] []) content) (fun p =>
      let '(m, remainder) := p in
      Ret (Http.complete (Http.close m) && match remainder with [] => true | _ => false end)).

  (** ArcTransformer.__init__, arc2warc.py:51-58 *)
  Record transformer : Type := mktr {
    tr_id : option bytes;               (* warcinfo_id *)
    tr_output : option (option bytes);  (* output_filename: None when none or an empty one was given, [Some None] a text
                                           string (which cannot be written into a record), [Some (Some n)] bytes *)
    tr_fields : bytes;                  (* warcinfo_fields *)
    tr_resources : list uprefix;
    tr_responses : list uprefix;
    tr_asked : nat }.                   (* how often the clock was asked *)
  Definition new_transformer (output : option (option bytes)) (fields : bytes) (resources responses : list uprefix) : transformer :=
    mktr None output fields resources responses 0.
  Definition tick (t : transformer) : transformer :=
    mktr (tr_id t) (tr_output t) (tr_fields t) (tr_resources t) (tr_responses t) (S (tr_asked t)).
  Definition with_id (t : transformer) (id : bytes) : transformer :=
    mktr (Some id) (tr_output t) (tr_fields t) (tr_resources t) (tr_responses t) (tr_asked t).

  Definition FILEDESC_URL : bytes := Eval vm_compute in B "filedesc://".
  (** convert_filedesc, arc2warc.py:71-118 *)
  Definition convert_filedesc (t : transformer) (st : stream) (r : record)
    : outcome (list draft) * transformer * stream :=
    let info_date := warc_datetime_str (clock (tr_asked t)) in
    let t1 := tick t in
    match rec_url r with
    | None => (Raise ETypeError, t1, st)
    | Some url =>
        let info_id := make_uuid (url ++ info_date) in
        let info := mkdraft ([(WARC_TYPE, Some V_WARCINFO); (WARC_ID, Some info_id); (WARC_DATE, Some info_date)]
                             ++ (match tr_output t with Some name => [(WARC_FILENAME, name)] | None => [] end))
                            (B "application/warc-fields") (tr_fields t) in
        let meta_date :=
          match rec_date r with
          | Some ((_ :: _) as d) => match arc_filedesc_date d with
                                    | Some dt => Ret (warc_datetime_str dt)
                                    | None => Raise EValueError
                                    end
          | _ => Ret info_date
          end in
        match meta_date with
        | Ret md =>
            match rec_date r with
            | None => (Raise ETypeError, t1, st)
            | Some date =>
                let meta_id := make_uuid (url ++ date ++ B "-meta") in
                let meta_url := if startswith FILEDESC_URL url then skipn 11 url else url in
                match arc_raw r st with
                | (Ret raw, _, st') =>
                    let meta := mkdraft
                      [(WARC_TYPE, Some V_METADATA); (WARC_CONCURRENT_TO, Some info_id); (WARC_ID, Some meta_id);
                       (WARC_URL, Some meta_url); (WARC_DATE, Some md); (WARC_WARCINFO_ID, Some info_id)]
                      (B "application/arc") raw in
                    (Ret [info; meta], with_id t1 info_id, st')
                | (Raise e, _, st') => (Raise e, t1, st')
                | (Diverge, _, st') => (Diverge, t1, st')
                end
            end
        | Raise e => (Raise e, t1, st)
        | Diverge => (Diverge, t1, st)
        end
    end.

  (** the record type and content type, arc2warc.py:149-172.  The test for dns URLs
      compares a text string with a byte string, which is never equal. *)
  Definition classify (t : transformer) (url ct content : bytes) : outcome (bytes * bytes) :=
    let url := lower url in
    bind (any_prefix (tr_resources t) url) (fun b1 =>
      if b1 then Ret (V_RESOURCE, ct)
      else bind (any_prefix (tr_responses t) url) (fun b2 =>
        if b2 then Ret (V_RESPONSE, ct)
        else if startswith (B "http") url then
          bind (is_http_response content) (fun b3 =>
            if b3 then Ret (V_RESPONSE, HTTP_RESPONSE_TYPE) else Ret (V_RESOURCE, ct))
        else Ret (V_RESPONSE, ct))).
  (** convert_record, arc2warc.py:120-178 *)
  Definition convert_record (t : transformer) (st : stream) (r : record)
    : outcome (list draft) * transformer * stream :=
    match rec_url r, rec_date r with
    | Some url, Some date =>
        let id := make_uuid (url ++ date) in
        let '(when, t1) :=
          match date with
          | [] => (Some (clock (tr_asked t)), tick t)
          | _ => (arc_record_date date, t)
          end in
        match when with
        | None => (Raise EValueError, t1, st)
        | Some dt =>
            let ip := match get_header r ARC_IP with
                      | Some ((_ :: _) as v) =>
                          if bytes_eqb (strip v) (B "0.0.0.0") then [] else [(WARC_IP, Some (strip v))]
                      | _ => []
                      end in
            match rec_content r st with
            | (Ret (Some ct0, Some content), _, st') =>
                let ct := match strip ct0 with [] => B "application/octet-stream" | _ => ct0 end in
                match classify t1 url ct content with
                | Ret (type, ct') =>
                    (Ret [mkdraft ([(WARC_ID, Some id); (WARC_URL, Some url); (WARC_WARCINFO_ID, tr_id t1)]
                                   ++ ip ++ [(WARC_DATE, Some (warc_datetime_str dt)); (WARC_TYPE, Some type)])
                                  ct' content], t1, st')
                | Raise e => (Raise e, t1, st')
                | Diverge => (Diverge, t1, st')
                end
            | (Ret (None, _), _, st') => (Raise EAttributeError, t1, st')
            | (Ret (Some _, None), _, st') => (Raise ETypeError, t1, st')
            | (Raise e, _, st') => (Raise e, t1, st')
            | (Diverge, _, st') => (Diverge, t1, st')
            end
        end
    | _, _ => (Raise ETypeError, t, st)
    end.
  (** convert, arc2warc.py:64-69 *)
  Definition convert (t : transformer) (st : stream) (r : record)
    : outcome (list draft) * transformer * stream :=
    if is_some_eq (rec_type r) V_FILEDESC then convert_filedesc t st r else convert_record t st r.

  (** for warcrecord in warcs: warcrecord.write_to(out, gzip=...), arc2warc.py:229-230 *)
  Fixpoint write_drafts (gz : option gzipper) (ds : list draft) (out : bytes) (st : stream)
    : outcome unit * bytes * stream :=
    match ds with
    | [] => (Ret tt, out, st)
    | d :: ds' =>
        match write_draft gz out st d with
        | (Ret _, out', st') => write_drafts gz ds' out' st'
        | (Raise e, out', st') => (Raise e, out', st')
        | (Diverge, out', st') => (Diverge, out', st')
        end
    end.
  (** the loop body, arc2warc.py:221-230; the state is the transformer and the output *)
  Definition a2w_body (gz : option gzipper) (s : transformer * bytes) (st : stream) (r : record)
    : outcome unit * (transformer * bytes) * stream :=
    let '(t, out) := s in
    if is_warc r then
      match emit gz out st r with (o, out', st') => (o, (t, out'), st') end
    else
      match convert t st r with
      | (Ret ds, t', st') =>
          match write_drafts gz ds out st' with (o, out', st'') => (o, (t', out'), st'') end
      | (Raise e, t', st') => (Raise e, (t', out), st')
      | (Diverge, t', st') => (Diverge, (t', out), st')
      end.
  (** MixedRecord.open_archive(filename=name, gzip="auto"), arc2warc.py:219 *)
  Definition open_mixed (i : input) : outcome stream :=
    open_stream gunzip AMixed (endswith (B ".gz") (in_name i)) GAuto (mkfile (in_data i) 0 true).
  Fixpoint a2w_files (gz : option gzipper) (files : list input) (s : transformer * bytes)
    : outcome unit * (transformer * bytes) :=
    match files with
    | [] => (Ret tt, s)
    | i :: files' =>
        match open_mixed i with
        | Ret st =>
            match for_records (a2w_body gz) s st with
            | (Ret _, s', _) => a2w_files gz files' s'
            | (Raise e, s', _) => (Raise e, s')
            | (Diverge, s', _) => (Diverge, s')
            end
        | Raise e => (Raise e, s)
        | Diverge => (Diverge, s)
        end
    end.
  (** options.output, arc2warc.py:217: a text string *)
  Definition text_name (output : bool) : option (option bytes) := if output then Some None else None.
  (** main, arc2warc.py:196-234: [fields] is what warcinfo_fields() made of the options
      and the host name; [output] tells whether -o was given; prefixes come as text.
      The result is what was written. *)
  Definition arc2warc (gz : option gzipper) (output : bool) (fields : bytes)
      (resources responses : list uprefix) (files : list input) : outcome unit * bytes :=
    match a2w_files gz files (new_transformer (text_name output) fields resources responses, []) with
    | (o, (_, out)) => (o, out)
    end.
End Convert.
