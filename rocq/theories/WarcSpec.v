(** Specification of WARC archives, independent of the reader and writer: what the
    text of an archive is, and what it means.  Used in theorem statements. *)
From Verif Require Export Reader.
From Coq Require Import String List.
Open Scope list_scope.

(** ** Text that fits on one line *)
Definition no_lf (s : bytes) : Prop := ~ In LF s.
(** neither starts nor ends with white space *)
Definition tidy (s : bytes) : Prop := strip s = s.
Definition name_ok (n : bytes) : Prop := no_lf n /\ ~ In COLON n /\ tidy n.
Definition value_ok (v : bytes) : Prop := no_lf v /\ tidy v.
Definition header_ok (h : header) : Prop := name_ok (fst h) /\ value_ok (snd h).

(** ** Headers with a meaning for the reader *)
Definition same_name (a b : bytes) : Prop := lower a = lower b.
Definition same_nameb (a b : bytes) : bool := bytes_eqb (lower a) (lower b).
(** a Content-Type header must not be empty and a Content-Length must be a number *)
Definition header_clean (h : header) : Prop :=
  (same_name (fst h) (B "Content-Type") -> snd h <> []) /\
  (same_name (fst h) (B "Content-Length") -> exists n, py_int 10 (snd h) = Some n).
(** the number in the last valid Content-Length header, 0 when there is none *)
Fixpoint declared_length (hs : list header) (default : Z) : Z :=
  match hs with
  | [] => default
  | (n, v) :: t =>
      declared_length t
        (if same_nameb n (B "Content-Length")
         then match py_int 10 v with Some z => z | None => default end
         else default)
  end.
(** complaints about header values *)
Definition value_errors (h : header) : list perr :=
  if same_nameb (fst h) (B "Content-Type") then
    match snd h with [] => [ErrInvalid (fst h) (snd h)] | _ => [] end
  else if same_nameb (fst h) (B "Content-Length") then
    match py_int 10 (snd h) with Some _ => [] | None => [ErrInvalid (fst h) (snd h)] end
  else [].

(** ** Canonical records: CR LF line ends, 'Name: value' *)
Definition versions : list bytes := [B "WARC/1.0"; B "WARC/0.17"; B "WARC/0.18"].
Definition header_text (h : header) : bytes := fst h ++ B ": " ++ snd h ++ CRLF.
Definition head_text (version : bytes) (hs : list header) : bytes :=
  version ++ CRLF ++ concat (map header_text hs) ++ CRLF.

(** a record as a value *)
Record wrec : Type := mkw { w_version : bytes; w_headers : list header; w_body : bytes }.
Definition wrec_text (w : wrec) : bytes := head_text (w_version w) (w_headers w) ++ w_body w.
Definition wrec_ok (w : wrec) : Prop :=
  In (w_version w) versions /\ Forall header_ok (w_headers w) /\ Forall header_clean (w_headers w) /\
  declared_length (w_headers w) 0 = Z.of_nat (List.length (w_body w)).

(** An archive: records, each followed by a separator (CR and LF bytes ending in
    LF, or nothing). *)
Definition sep_ok (s : bytes) : Prop :=
  (forall c, In c s -> c = CR \/ c = LF) /\ (s = [] \/ exists t, s = t ++ [LF]).
Definition archive : Type := list (wrec * bytes).
Definition archive_text (a : archive) : bytes :=
  concat (map (fun p => wrec_text (fst p) ++ snd p) a).
Definition archive_ok (a : archive) : Prop :=
  Forall (fun p => wrec_ok (fst p) /\ sep_ok (snd p)) a.

(** ** What a caller sees *)
(** the first header with that name, up to case *)
Fixpoint first_header (name : bytes) (hs : list header) : option bytes :=
  match hs with
  | [] => None
  | (n, v) :: t => if same_nameb n name then Some v else first_header name t
  end.
Inductive seen : Type :=
| Seen (offset : option nat) (version : bytes) (headers : list header) (errors : list perr)
       (content_type : option bytes) (payload : bytes)
| SeenEnd (offset : option nat) (errors : list perr).
Definition seen_record (offset : option nat) (w : wrec) : seen :=
  Seen offset (w_version w) (w_headers w) []
       (first_header (B "Content-Type") (w_headers w)) (w_body w).
(** the records of an archive starting at byte [start], then the end *)
Fixpoint seen_archive (show : nat -> option nat) (start : nat) (a : archive) : list seen :=
  match a with
  | [] => [SeenEnd (show start) []]
  | (w, s) :: t =>
      seen_record (show start) w
      :: seen_archive show (start + List.length (wrec_text w) + List.length s) t
  end.

(** A caller that iterates with read_records and looks at everything: the loop
    body appends what it sees, reading the content. *)
Definition rec_version (r : record) : bytes :=
  match r_class r with RWarc v => v | _ => [] end.
Definition look (acc : list seen) (st : stream) (it : item)
  : outcome bool * list seen * stream :=
  match it with
  | (off, None, errs) => (Ret true, acc ++ [SeenEnd off errs], st)
  | (off, Some r, errs) =>
      match rec_content r st with
      | (Ret (ct, Some d), r', st') =>
          (Ret true, acc ++ [Seen off (rec_version r') (r_headers r') (r_errors r') ct d], st')
      | (Ret (_, None), _, st') => (Raise ETypeError, acc, st')
      | (Raise e, _, st') => (Raise e, acc, st')
      | (Diverge, _, st') => (Diverge, acc, st')
      end
  end.

(** ** General header blocks: any line ends, any spacing, folded values *)
Definition eol (crlf : bool) : bytes := if crlf then CRLF else [LF].
(** one header: name, text after the colon, line end, continuation lines *)
Record entry : Type := mkentry {
  en_name : bytes; en_raw : bytes; en_crlf : bool; en_conts : list (bytes * bool) }.
Definition cont_text (c : bytes * bool) : bytes := fst c ++ eol (snd c).
Definition entry_line (e : entry) : bytes := en_name e ++ [COLON] ++ en_raw e ++ eol (en_crlf e).
Definition entry_text (e : entry) : bytes := entry_line e ++ concat (map cont_text (en_conts e)).
Definition not_cr_end (crlf : bool) (s : bytes) : Prop := crlf = false -> forall t, s <> t ++ [CR].
Definition cont_ok (c : bytes * bool) : Prop :=
  no_lf (fst c) /\ not_cr_end (snd c) (fst c) /\
  (exists x t, fst c = x :: t /\ is_space x = true) /\
  (exists x, In x (fst c) /\ is_space x = false).
Definition entry_ok (e : entry) : Prop :=
  no_lf (en_name e) /\ ~ In COLON (en_name e) /\
  (forall x t, en_name e = x :: t -> is_space x = false) /\
  no_lf (en_raw e) /\ not_cr_end (en_crlf e) (en_raw e) /\ Forall cont_ok (en_conts e).
(** its meaning: name and value with surrounding white space removed, pieces
    joined by single spaces *)
Definition entry_header (e : entry) : header :=
  (strip (en_name e), join (B " ") (strip (en_raw e) :: map (fun c : bytes * bool => strip (fst c)) (en_conts e))).
(** newline complaints: a line end other than CR LF.  A header line with nothing
    at all after the colon is also reported, even when it ends in CR LF: the
    reader takes the CR for the optional white space after the colon. *)
Definition entry_nl_errors (e : entry) : list perr :=
  (if en_crlf e && negb (bytes_eqb (en_raw e) []) then [] else [ErrHeaderNl [LF]]) ++
  concat (map (fun c : bytes * bool => if snd c then [] else [ErrFollowNl (cont_text c) [LF]]) (en_conts e)).
Definition entry_errors (e : entry) : list perr := entry_nl_errors e ++ value_errors (entry_header e).

(** ** Writing *)
(** a supplied header that is left out because the content supplies it *)
Definition supplied_by_content (h : header) : bool :=
  bytes_eqb (fst h) (B "Content-Type") || bytes_eqb (fst h) (B "Content-Length").
(** the headers written for a record built from headers and a content tuple *)
Definition tuple_headers (hs : list header) (ct : option bytes) (body : bytes) : list header :=
  filter (fun h => negb (supplied_by_content h)) hs
  ++ (match ct with Some (c :: t) => [(B "Content-Type", c :: t)] | _ => [] end)
  ++ [(B "Content-Length", dec_nat (List.length body))].
Definition tuple_wrec (version : bytes) (hs : list header) (ct : option bytes) (body : bytes) : wrec :=
  mkw version (tuple_headers hs ct body) body.
(** the terminator written after every record *)
Definition terminator : bytes := CRLF ++ CRLF.
(** the pieces a file-like object yields before its first empty read *)
Fixpoint yields (r : reader) : bytes :=
  match r with
  | [] => []
  | [] :: _ => []
  | p :: ps => p ++ yields ps
  end.

(** ** Opening and sessions *)
(** a stream just opened on an uncompressed WARC file *)
Definition opened_on (text : bytes) (st : stream) : Prop :=
  exists strict, st = new_stream SPlain (mkfile text 0 strict) PWarc.

(** a caller that reads records one by one and, between two of them, makes calls
    on the content file *)
Fixpoint session (offsets : bool) (uses : list (list cop)) (st : stream)
  : outcome (list (item * list bytes)) * stream :=
  match uses with
  | [] => (Ret [], st)
  | ops :: t =>
      match read_record st offsets with
      | (Ret it, st1) =>
          match run_cops st1 ops with
          | (Ret ds, st2) => let '(r, st3) := session offsets t st2 in
                             (omap (cons (it, ds)) r, st3)
          | (Raise e, st2) => (Raise e, st2)
          | (Diverge, st2) => (Diverge, st2)
          end
      | (Raise e, st1) => (Raise e, st1)
      | (Diverge, st1) => (Diverge, st1)
      end
  end.
(** what a call returns when [left] is the unread part of the payload *)
Definition piece (o : cop) (left : bytes) : bytes :=
  match o with
  | OpRead None => left
  | OpRead (Some n) => firstn (Z.to_nat n) left
  | OpReadline None => take_line left
  | OpReadline (Some n) => firstn (Z.to_nat n) (take_line left)
  end.
Fixpoint pieces (ops : list cop) (left : bytes) : list bytes :=
  match ops with
  | [] => []
  | o :: t => piece o left :: pieces t (skipn (List.length (piece o left)) left)
  end.
Definition limit_ok (o : cop) : Prop :=
  match o with OpRead (Some n) | OpReadline (Some n) => (0 <= n)%Z | _ => True end.
(** where record number [i] starts *)
Definition start_of (a : archive) (i : nat) : nat := List.length (archive_text (firstn i a)).
Fixpoint items_from (start : nat) (a : archive) : list item :=
  match a with
  | [] => [(Some start, None, [])]
  | (w, s) :: t =>
      (Some start, Some (mkrec (RWarc (w_version w)) (w_headers w) [] None CF_stream true), [])
      :: items_from (start + List.length (wrec_text w) + List.length s) t
  end.

(** ** Records to be written *)
Inductive source : Type :=
| FromTuple (version : bytes) (hs : list header) (ct : option bytes) (body : bytes)
| FromFile (version : bytes) (hs : list header) (rd : reader).
Definition source_record (x : source) : record :=
  match x with
  | FromTuple v hs ct body => new_warc v hs (Some (ct, Some body)) [] CF_none
  | FromFile v hs rd => new_warc v hs None [] (CF_own rd)
  end.
(** what should be found in the archive *)
Definition source_wrec (x : source) : wrec :=
  match x with
  | FromTuple v hs ct body => tuple_wrec v hs ct body
  | FromFile v hs rd => mkw v hs (yields rd)
  end.
Definition source_ok (x : source) : Prop :=
  match x with
  | FromTuple v hs ct body =>
      In v versions /\ Forall header_ok hs /\
      Forall (fun h => supplied_by_content h = false -> header_clean h) hs /\
      (match ct with Some c => value_ok c | None => True end)
  | FromFile v hs rd => wrec_ok (mkw v hs (yields rd))
  end.
(** out.write(...) of one record after another *)
Fixpoint write_all (gz : option gzipper) (rs : list record) (st : stream)
  : outcome unit * bytes :=
  match rs with
  | [] => (Ret tt, [])
  | r :: t =>
      match write_to gz CRLF r st with
      | (Ret _, _, st', out) => let '(o, out') := write_all gz t st' in (o, out ++ out')
      | (Raise e, _, _, out) => (Raise e, out)
      | (Diverge, _, _, out) => (Diverge, out)
      end
  end.
(** the archive that results *)
Definition written (l : list source) : archive := map (fun x => (source_wrec x, terminator)) l.
(** the same as [look], as the body of a [for record in stream] loop *)
Definition look_rec (acc : list seen) (st : stream) (r : record) : outcome unit * list seen * stream :=
  match look acc st (None, Some r, []) with
  | (Ret _, acc', st') => (Ret tt, acc', st')
  | (Raise e, acc', st') => (Raise e, acc', st')
  | (Diverge, acc', st') => (Diverge, acc', st')
  end.

(** ** Reading a record that was cut short (C08) *)
Inductive cut : Type :=
| CutNothing                                  (* nothing there: clean end *)
| CutVersion (got : bytes)                    (* no record; the line is reported *)
| CutHang                                     (* the reader never returns *)
| CutRecord (hs : list header) (errs : list perr) (have : bytes).
                                              (* a record; [have] is all of the payload that is there *)
Definition single_line_header (h : header) : Prop := ~ In CR (fst h) /\ ~ In CR (snd h).
(** [n] bytes of the header lines and what follows are there *)
Fixpoint cut_headers (n : nat) (hs done : list header) (body : bytes) : cut :=
  match hs with
  | [] => CutRecord done [] (firstn (n - 2) body)
  | h :: t =>
      if n =? 0 then CutRecord done [] []                          (* between two lines *)
      else if n + 1 <? List.length (header_text h) then CutHang     (* inside a line *)
      else if n + 1 =? List.length (header_text h)                  (* only LF is missing *)
           then CutRecord (done ++ [h]) [ErrHeaderNl [CR]] []
      else cut_headers (n - List.length (header_text h)) t (done ++ [h]) body
  end.
Definition cut_result (w : wrec) (n : nat) : cut :=
  let v := List.length (w_version w) in
  if n =? 0 then CutNothing
  else if n <=? v then CutVersion (firstn n (w_version w))
  else if n =? v + 1 then CutRecord [] [ErrVersionNl [CR]] []
  else cut_headers (n - (v + 2)) (w_headers w) [] (w_body w).

(** ** Arbitrary input: lines (C09 - C12) *)
(** a line that ends a header block: it starts with CR, or is just LF *)
Definition blank_text (l : bytes) : bool :=
  match l with
  | c :: t => N.eqb c 13 || (N.eqb c 10 && match t with [] => true | _ => false end)
  | [] => false
  end.
(** a continuation line: white space first, at least three bytes, a line end *)
Definition cont_text_line (l : bytes) : bool :=
  match l with
  | c :: _ :: _ :: _ => is_space c && (N.eqb (last l 0%N) 13 || N.eqb (last l 0%N) 10)
  | _ => false
  end.
(** a header line: it has a colon and a line end *)
Definition header_like (l : bytes) : bool :=
  existsb (N.eqb COLON) l && (N.eqb (last l 0%N) 13 || N.eqb (last l 0%N) 10).
(** the header block [ls] contains, before its end, a line that is none of these *)
Fixpoint stuck (after_header : bool) (ls : list bytes) : Prop :=
  match ls with
  | [] => False
  | l :: t =>
      if after_header && cont_text_line l then stuck true t
      else if blank_text l then False
      else if header_like l then stuck true t
      else True
  end.
(** a version line: the letters WARC/ in any case, and a line end *)
Definition version_line (l : bytes) : bool :=
  contains (B "warc/") (lower l) && (N.eqb (last l 0%N) 13 || N.eqb (last l 0%N) 10).
(** how it is taken apart: other text [pfx] that holds no tag and does not end in
    white space, white space, the first tag, the version number, the line end *)
Definition line_end (num nl : bytes) : Prop :=
  nl = CRLF \/ nl = [CR] \/ (nl = [LF] /\ forall t, num <> t ++ [CR]).
Definition version_as (l pfx ws tag num nl : bytes) : Prop :=
  l = pfx ++ ws ++ tag ++ num ++ nl /\
  lower tag = B "warc/" /\ contains (B "warc/") (lower pfx) = false /\
  forallb is_space ws = true /\ (forall t c, pfx = t ++ [c] -> is_space c = false) /\ line_end num nl.
(** junk before a version line *)
Definition junk_lines (ls : list bytes) : list bytes := filter (fun l => negb (blank_text l)) ls.
Definition known_numbers : list bytes := [B "1.0"; B "0.17"; B "0.18"].
Definition line_text (l : bytes) : bytes := l ++ [LF].
Definition no_version (l : bytes) : Prop := no_lf l /\ contains (B "warc/") (lower l) = false.
(** a reader on an uncompressed WARC file, at byte [pos], between records; [text]
    is the rest of the file *)
Definition ready (st : stream) (pos : nat) (text : bytes) : Prop :=
  s_kind st = SPlain /\ s_parser st = PWarc /\ s_eoc st = None /\
  f_pos (s_fh st) = pos /\ f_rest (s_fh st) = text.
(** whole lines *)
Definition is_line (l : bytes) : Prop := exists s, no_lf s /\ l = line_text s.
