(** The WARC parser and record factories: hanzo/warctools/warc.py. *)
From Verif Require Export Record.
From Coq Require Import String List.
Open Scope list_scope.

(** ** Regular expressions, warc.py:159-166 (all with re.IGNORECASE).
    Group numbers: *)
Definition g_prefix : nat := 0.
Definition g_version : nat := 1.
Definition g_number : nat := 2.
Definition g_nl : nat := 3.
Definition g_name : nat := 4.
Definition g_value : nat := 5.

(** (?P<nl>\r\n|\r|\n) *)
Definition nl_alt : re :=
  RGrp g_nl (RAlt (RSeq (lit 13) (lit 10)) (RAlt (lit 13) (lit 10))).
(** version_rx, warc.py:159-160:
    ^(?P<prefix>.*?)(?P<version>\s*WARC/(?P<number>.*?))(?P<nl>\r\n|\r|\n)\Z *)
Definition version_rx : re :=
  RSeq RBol
 (RSeq (RGrp g_prefix (RStar false dot))
 (RSeq (RGrp g_version
          (RSeq (RStar true is_space)
          (RSeq (rstr_i (B "WARC/"))
                (RGrp g_number (RStar false dot)))))
 (RSeq nl_alt REos))).
(** header_rx, warc.py:162: ^(?P<name>.*?):\s?(?P<value>.*?)(?P<nl>\r\n|\r|\n)\Z *)
Definition header_rx : re :=
  RSeq RBol
 (RSeq (RGrp g_name (RStar false dot))
 (RSeq (lit 58)
 (RSeq (ropt (RChr is_space))
 (RSeq (RGrp g_value (RStar false dot))
 (RSeq nl_alt REos))))).
(** value_rx, warc.py:163: ^\s+(?P<value>.+?)(?P<nl>\r\n|\r|\n)\Z *)
Definition value_rx : re :=
  RSeq RBol
 (RSeq (rplus true is_space)
 (RSeq (RGrp g_value (rplus false dot))
 (RSeq nl_alt REos))).
(** nl_rx, warc.py:164: ^(?P<nl>\r\n|\r|\n\Z) *)
Definition nl_rx : re :=
  RSeq RBol
    (RGrp g_nl (RAlt (RSeq (lit 13) (lit 10)) (RAlt (lit 13) (RSeq (lit 10) REos)))).
(** length_rx, type_rx, warc.py:165-166: ^Content-Length$, ^Content-Type$ *)
Definition length_rx : re := RSeq RBol (RSeq (rstr_i CONTENT_LENGTH) REol).
Definition type_rx : re := RSeq RBol (RSeq (rstr_i CONTENT_TYPE) REol).

(** bad_lines, warc.py:10 *)
Definition bad_lines : nat := 5.
(** WarcParser.KNOWN_VERSIONS, warc.py:177 *)
Definition KNOWN_VERSIONS : list bytes :=
  Eval vm_compute in [B "1.0"; B "0.17"; B "0.18"].

(** Result of a parser: (record, errors, offset), warc.py:206, 211, 281 *)
Definition parsed : Type := option record * list perr * option nat.

Definition add_off (o : option nat) (n : nat) : option nat :=
  match o with Some x => Some (x + n) | None => None end.

(** Looking for the version line, warc.py:191-211. *)
Inductive found : Type :=
| FNone (p : parsed)                                    (* return without a record *)
| FVersion (g : groups) (offset : option nat) (errors : list perr).
Fixpoint find_version (fuel : nat) (st : stream) (line : bytes)
    (offset : option nat) (errors : list perr) : outcome found * stream :=
  match fuel with
  | O => (Diverge, st)
  | S fuel' =>
      match line with
      | [] => (Ret (FNone (None, errors, offset)), st)
      | _ =>
          match re_match version_rx line with
          | Some g => (Ret (FVersion g (add_off offset (List.length (group g_prefix g))) errors), st)
          | None =>
              let offset' := add_off offset (List.length line) in
              let next errs :=
                let '(line', st') := stream_readline st None in
                find_version fuel' st' line' offset' errs in
              if re_test nl_rx line then next errors
              else
                let errors' := errors ++ [ErrIgnored line] in
                if Nat.ltb bad_lines (List.length errors')
                then (Ret (FNone (None, errors' ++ [ErrTooMany], offset')), st)
                else next errors'
          end
      end
  end.

(** The continuation-line loop, warc.py:245-254.  [line] has already been read. *)
Fixpoint follow_loop (fuel : nat) (st : stream) (line : bytes)
    (values : list bytes) (errors : list perr)
  : outcome (list bytes * list perr * bytes) * stream :=
  match fuel with
  | O => (Diverge, st)
  | S fuel' =>
      match re_match value_rx line with
      | None => (Ret (values, errors, line), st)
      | Some g =>
          let errors' := if bytes_eqb (group g_nl g) CRLF then errors
                         else errors ++ [ErrFollowNl line (group g_nl g)] in
          let '(line', st') := stream_readline st None in
          follow_loop fuel' st' line' (values ++ [strip (group g_value g)]) errors'
      end
  end.

(** Effect of one complete header on errors and content_length, warc.py:260-271 *)
Definition note_header (name value : bytes) (errors : list perr) (clen : Z)
  : list perr * Z :=
  if re_test type_rx name then
    match value with
    | [] => (errors ++ [ErrInvalid name value], clen)
    | _ => (errors, clen)
    end
  else if re_test length_rx name then
    match py_int 10 value with
    | Some n => (errors, n)
    | None => (errors ++ [ErrInvalid name value], clen)
    end
  else (errors, clen).

(** The header loop, warc.py:232-271.  [line] has already been read.  When
    [header_rx] does not match, the Python loop body does nothing at all: the same
    line is examined again. *)
Fixpoint header_loop (fuel : nat) (st : stream) (line : bytes)
    (headers : list header) (errors : list perr) (clen : Z)
  : outcome (list header * list perr * Z) * stream :=
  match fuel with
  | O => (Diverge, st)
  | S fuel' =>
      match line with
      | [] => (Ret (headers, errors, clen), st)
      | _ =>
        if re_test nl_rx line then (Ret (headers, errors, clen), st)
        else
          match re_match header_rx line with
          | None => header_loop fuel' st line headers errors clen
          | Some g =>
              let errors1 := if bytes_eqb (group g_nl g) CRLF then errors
                             else errors ++ [ErrHeaderNl (group g_nl g)] in
              let name := strip (group g_name g) in
              let '(line1, st1) := stream_readline st None in
              match follow_loop fuel' st1 line1 [strip (group g_value g)] errors1 with
              | (Ret (values, errors2, line2), st2) =>
                  let value := join [32%N] values in
                  let '(errors3, clen') := note_header name value errors2 clen in
                  header_loop fuel' st2 line2 (headers ++ [(name, value)]) errors3 clen'
              | (Raise e, st2) => (Raise e, st2)
              | (Diverge, st2) => (Diverge, st2)
              end
          end
      end
  end.

(** WarcParser.parse, warc.py:179-281.  [line = None]: read the first line. An
    unknown version raises TypeError because the error message joins byte
    strings with a text separator (warc.py:221-224). *)
Definition warc_parse_fuel (fuel : nat) (st : stream) (offset : option nat)
    (line : option bytes) : outcome parsed * stream :=
  let '(line0, st0) := match line with
                       | Some l => (l, st)
                       | None => stream_readline st None
                       end in
  match find_version fuel st0 line0 offset [] with
  | (Ret (FNone p), st1) => (Ret p, st1)
  | (Ret (FVersion g offset' errors), st1) =>
      let errors1 := if bytes_eqb (group g_nl g) CRLF then errors
                     else errors ++ [ErrVersionNl (group g_nl g)] in
      if in_list (group g_number g) KNOWN_VERSIONS then
        let errors2 := match group g_prefix g with
                       | [] => errors1
                       | pfx => errors1 ++ [ErrPrefix pfx]
                       end in
        let '(line1, st2) := stream_readline st1 None in
        match header_loop fuel st2 line1 [] errors2 0%Z with
        | (Ret (headers, errors3, clen), st3) =>
            let r := mkrec (RWarc (group g_version g)) headers errors3 None CF_stream true in
            (Ret (Some r, [], offset'), set_eoc st3 (Some clen))
        | (Raise e, st3) => (Raise e, st3)
        | (Diverge, st3) => (Diverge, st3)
        end
      else (Raise ETypeError, st1)
  | (Raise e, st1) => (Raise e, st1)
  | (Diverge, st1) => (Diverge, st1)
  end.
Definition warc_parse (st : stream) (offset : option nat) (line : option bytes)
  : outcome parsed * stream :=
  warc_parse_fuel (file_fuel (s_fh st)) st offset line.

(** ** Factories, warc.py:289-358 *)
Definition opt_header (name : bytes) (v : option bytes) : list header :=
  if truthy v then [(name, or_empty v)] else [].
Definition tuple_record (hs : list header) (content : option bytes * option bytes) : record :=
  new_warc VERSION10 hs (Some content) [] CF_none.
(** warc.py:289-303 *)
Definition make_response (id date url : bytes) content (request_id : option bytes) : record :=
  tuple_record ([(WARC_TYPE, V_RESPONSE); (WARC_ID, id); (WARC_DATE, date); (WARC_URL, url)]
                ++ opt_header WARC_CONCURRENT_TO request_id) content.
(** warc.py:306-320 *)
Definition make_request (request_id date url : bytes) content (response_id : option bytes) : record :=
  tuple_record ([(WARC_TYPE, V_REQUEST); (WARC_ID, request_id); (WARC_DATE, date); (WARC_URL, url)]
                ++ opt_header WARC_CONCURRENT_TO response_id) content.
(** warc.py:323-339 *)
Definition make_metadata (meta_id date : bytes) content (concurrent_to url : option bytes) : record :=
  tuple_record ([(WARC_TYPE, V_METADATA); (WARC_ID, meta_id); (WARC_DATE, date)]
                ++ opt_header WARC_CONCURRENT_TO concurrent_to
                ++ opt_header WARC_URL url) content.
(** warc.py:342-358 *)
Definition make_conversion (conv_id date : bytes) content (refers_to url : option bytes) : record :=
  tuple_record ([(WARC_TYPE, V_CONVERSION); (WARC_ID, conv_id); (WARC_DATE, date)]
                ++ opt_header WARC_REFERS_TO refers_to
                ++ opt_header WARC_URL url) content.
