(** The ARC parser: hanzo/warctools/arc.py. *)
From Verif Require Export Warc.
From Coq Require Import String List.
Open Scope list_scope.

(** length_rx, type_rx, arc.py:69-70: ^Archive-length$, ^Content-type$, IGNORECASE *)
Definition arc_length_rx : re := RSeq RBol (RSeq (rstr_i ARC_CONTENT_LENGTH) REol).
Definition arc_type_rx : re := RSeq RBol (RSeq (rstr_i ARC_CONTENT_TYPE) REol).
(** SPLIT, arc.py:71: \b\s|\s\b *)
Definition split_rx : re :=
  RAlt (RSeq RWordB (RChr is_space)) (RSeq (RChr is_space) RWordB).

(** ArcParser.get_content_headers, arc.py:176-194: the errors and the length (the
    content type it also returns is not used by the caller) *)
Fixpoint arc_content_headers (hs : list header) (clen : option Z) (errors : list perr)
  : option Z * list perr :=
  match hs with
  | [] => (clen, errors)
  | (name, value) :: t =>
      if re_test arc_type_rx name then
        match value with
        | [] => arc_content_headers t clen (errors ++ [ErrInvalid name value])
        | _ => arc_content_headers t clen errors
        end
      else if re_test arc_length_rx name then
        match py_int 10 value with
        | Some n => arc_content_headers t (Some n) errors
        | None => arc_content_headers t clen (errors ++ [ErrInvalid name value])
        end
      else arc_content_headers t clen errors
  end.

(** ArcParser.parse_header_list, arc.py:159-173.  The 'missing headers' message
    joins byte strings with a text separator and therefore raises TypeError. *)
Definition arc_header_list (names : list bytes) (line : bytes) : outcome (list header) :=
  let line := rstrip_crlf line in
  let values := re_split split_rx 0 line in
  let retry : outcome (list bytes) :=
    if Nat.eqb (List.length names) (List.length values) then Ret values
    else match names with
         | [] => Raise EIndexError
         | n0 :: _ =>
             if in_list n0 [ARC_URL; ARC_CONTENT_TYPE]
             then Ret (map (@rev N) (rev (re_split split_rx (List.length names - 1) (rev line))))
             else Ret (re_split split_rx (List.length names - 1) line)
         end in
  bind retry (fun values' =>
    if Nat.eqb (List.length names) (List.length values')
    then Ret (combine names values')
    else Raise ETypeError).

(** The loop over blank lines, arc.py:98-101 *)
Fixpoint arc_blank_loop (fuel : nat) (st : stream) (line : bytes)
  : outcome (option bytes) * stream :=
  match fuel with
  | O => (Diverge, st)
  | S fuel' =>
      match rstrip line with
      | [] => match line with
              | [] => (Ret None, st)
              | _ => let '(line', st') := stream_readline st None in
                     arc_blank_loop fuel' st' line'
              end
      | _ => (Ret (Some line), st)
      end
  end.

Definition FILEDESC : bytes := Eval vm_compute in B "filedesc:".
Definition E_filedesc : exn := EException [102%N].    (* 'missing filedesc' *)

(** ArcParser.parse, arc.py:89-154.  Returns the new parser state too. *)
Definition arc_parse_fuel (fuel : nat) (a : arcstate) (st : stream) (offset : option nat)
    (line : option bytes) : outcome parsed * arcstate * stream :=
  let '(line0, st0) := match line with
                       | Some l => (l, st)
                       | None => stream_readline st None
                       end in
  match arc_blank_loop fuel st0 line0 with
  | (Ret None, st1) => (Ret (None, [], offset), a, st1)
  | (Ret (Some line1), st1) =>
      if startswith FILEDESC line1 then
        let '(version_line, st2) := stream_readline st1 None in
        let '(names_line, st3) := stream_readline st2 None in
        let raw_headers := [line1; version_line; names_line] in
        let arc_version := strip version_line in
        match split_ws arc_version with
        | [] => (Raise EIndexError, a, st3)
        | v0 :: _ =>
            let a' := mkarc v0 (split_ws (strip names_line)) in
            match arc_header_list (a_headers a') line1 with
            | Ret hs =>
                let '(clen, errors) := arc_content_headers hs None [] in
                match clen with
                | None => (Raise ETypeError, a', st3)
                | Some n =>
                    let n' := (n - Z.of_nat (List.length version_line)
                                 - Z.of_nat (List.length names_line))%Z in
                    let r := mkrec (RArcHeader arc_version raw_headers) hs errors
                                   None CF_stream true in
                    (Ret (Some r, [], offset), a', set_eoc st3 (Some n'))
                end
            | Raise e => (Raise e, a', st3)
            | Diverge => (Diverge, a', st3)
            end
        end
      else
        match a_headers a with
        | [] => (Raise E_filedesc, a, st1)
        | _ =>
            match arc_header_list (a_headers a) line1 with
            | Ret hs =>
                let '(clen, errors) := arc_content_headers hs None [] in
                let r := mkrec RArc hs errors None CF_stream true in
                (Ret (Some r, [], offset), a, set_eoc st1 clen)
            | Raise e => (Raise e, a, st1)
            | Diverge => (Diverge, a, st1)
            end
        end
  | (Raise e, st1) => (Raise e, a, st1)
  | (Diverge, st1) => (Diverge, a, st1)
  end.
Definition arc_parse (a : arcstate) (st : stream) (offset : option nat) (line : option bytes)
  : outcome parsed * arcstate * stream :=
  arc_parse_fuel (file_fuel (s_fh st)) a st offset line.
