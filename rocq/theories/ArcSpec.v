(** Specification of ARC archives, and of archives that mix WARC and ARC records,
    independent of the reader.  Used in theorem statements. *)
From Verif Require Export WarcSpec.
From Coq Require Import String List.
Open Scope list_scope.

(** ** Header lines: values separated by single spaces *)
(** no white space inside *)
Definition plain_value (v : bytes) : Prop := forall c, In c v -> is_space c = false.
Definition starts_word (s : bytes) : bool := match s with c :: _ => is_word c | [] => false end.
Definition ends_word (s : bytes) : bool := starts_word (rev s).
(** between two values there is a letter, digit or underscore on at least one
    side of the space *)
Fixpoint joints (vs : list bytes) : Prop :=
  match vs with
  | v :: ((w :: _) as t) => (ends_word v = true \/ starts_word w = true) /\ joints t
  | _ => True
  end.
Definition fields_text (vs : list bytes) : bytes := join [SP] vs.
(** the field that may contain spaces: the first one when it is the URL (or the
    content type), otherwise the last one *)
Definition free_first (names : list bytes) : bool :=
  match names with n :: _ => bytes_eqb n (B "URL") || bytes_eqb n (B "Content-type") | [] => false end.
Definition fields_ok (names vs : list bytes) : Prop :=
  List.length vs = List.length names /\ 2 <= List.length names /\ joints vs /\
  (if free_first names then Forall plain_value (tl vs) else Forall plain_value (removelast vs)) /\
  no_lf (fields_text vs) /\ (forall t, fields_text vs <> t ++ [CR]).

(** ** Meaning of the fields *)
(** the number in the last valid Archive-length field *)
Fixpoint archive_length (hs : list header) (default : option Z) : option Z :=
  match hs with
  | [] => default
  | (n, v) :: t =>
      archive_length t
        (if same_nameb n (B "Archive-length")
         then match py_int 10 v with Some z => Some z | None => default end
         else default)
  end.
Definition field_errors (h : header) : list perr :=
  if same_nameb (fst h) (B "Content-type") then
    match snd h with [] => [ErrInvalid (fst h) (snd h)] | _ => [] end
  else if same_nameb (fst h) (B "Archive-length") then
    match py_int 10 (snd h) with Some _ => [] | None => [ErrInvalid (fst h) (snd h)] end
  else [].

(** ** Records *)
(** a WARC record; an ARC filedesc record (field values, the line end used, the
    version line, the field-name line, the rest of its content); an ARC record *)
Inductive unit_ : Type :=
| UWarc (w : wrec)
| UDesc (vs : list bytes) (crlf : bool) (vline nline : bytes) (body : bytes)
| UArc (vs : list bytes) (crlf : bool) (body : bytes).
(** words separated by white space *)
Definition words (s : bytes) : list bytes := split_ws s.
Definition unit_text (u : unit_) : bytes :=
  match u with
  | UWarc w => wrec_text w
  | UDesc vs crlf vl nl body =>
      fields_text vs ++ eol crlf ++ vl ++ eol crlf ++ nl ++ eol crlf ++ body
  | UArc vs crlf body => fields_text vs ++ eol crlf ++ body
  end.
Definition unit_body (u : unit_) : bytes :=
  match u with UWarc w => w_body w | UDesc _ _ _ _ body => body | UArc _ _ body => body end.
(** the field names in force after a record: a filedesc record sets them *)
Definition names_after (names : list bytes) (u : unit_) : list bytes :=
  match u with UDesc _ _ _ nl _ => words nl | _ => names end.
(** well formed, when [names] are in force *)
Definition unit_ok (names : list bytes) (u : unit_) : Prop :=
  match u with
  | UWarc w => wrec_ok w
  | UDesc vs crlf vl nl body =>
      fields_ok (words nl) vs /\ startswith (B "filedesc:") (fields_text vs) = true /\
      no_lf vl /\ no_lf nl /\ words vl <> [] /\
      archive_length (combine (words nl) vs) None =
        Some (Z.of_nat (List.length (vl ++ eol crlf ++ nl ++ eol crlf ++ body)))
  | UArc vs crlf body =>
      fields_ok names vs /\ startswith (B "filedesc:") (fields_text vs) = false /\
      archive_length (combine names vs) None = Some (Z.of_nat (List.length body))
  end.
Definition is_arc_unit (u : unit_) : Prop := match u with UWarc _ => False | _ => True end.
Definition not_warc_like (u : unit_) : Prop :=
  match u with UArc vs _ _ => startswith (B "WARC") (fields_text vs) = false | _ => True end.
(** the records of an archive, each followed by a separator *)
Definition units : Type := list (unit_ * bytes).
Definition units_text (a : units) : bytes := concat (map (fun p => unit_text (fst p) ++ snd p) a).
Fixpoint units_ok (names : list bytes) (a : units) : Prop :=
  match a with
  | [] => True
  | (u, s) :: t => unit_ok names u /\ sep_ok s /\ units_ok (names_after names u) t
  end.

(** ** What a caller sees *)
Inductive useen : Type :=
| USeen (offset : option nat) (type : option bytes) (headers : list header) (errors : list perr)
        (content_type : option bytes) (payload : bytes)
| USeenEnd (offset : option nat) (errors : list perr).
Definition seen_unit (names : list bytes) (offset : option nat) (u : unit_) : useen :=
  match u with
  | UWarc w => USeen offset (first_header (B "WARC-Type") (w_headers w)) (w_headers w) []
                 (first_header (B "Content-Type") (w_headers w)) (w_body w)
  | UDesc vs _ _ nl body =>
      let hs := combine (words nl) vs in
      USeen offset (Some (B "filedesc")) hs (concat (map field_errors hs)) (first_header (B "Content-type") hs) body
  | UArc vs _ body =>
      let hs := combine names vs in
      USeen offset (Some (B "response")) hs (concat (map field_errors hs)) (first_header (B "Content-type") hs) body
  end.
Fixpoint seen_units (show : nat -> option nat) (start : nat) (names : list bytes) (a : units) : list useen :=
  match a with
  | [] => [USeenEnd (show start) []]
  | (u, s) :: t =>
      seen_unit names (show start) u
      :: seen_units show (start + List.length (unit_text u) + List.length s) (names_after names u) t
  end.
(** the loop body that looks at everything *)
Definition ulook (acc : list useen) (st : stream) (it : item) : outcome bool * list useen * stream :=
  match it with
  | (off, None, errs) => (Ret true, acc ++ [USeenEnd off errs], st)
  | (off, Some r, errs) =>
      match rec_content r st with
      | (Ret (ct, Some d), r', st') =>
          (Ret true, acc ++ [USeen off (rec_type r') (r_headers r') (r_errors r') ct d], st')
      | (Ret (_, None), _, st') => (Raise ETypeError, acc, st')
      | (Raise e, _, st') => (Raise e, acc, st')
      | (Diverge, _, st') => (Diverge, acc, st')
      end
  end.
(** values with single white-space bytes between them *)
Inductive woven : list bytes -> bytes -> Prop :=
| woven_one v : woven [v] v
| woven_cons v c vs t : is_space c = true -> woven vs t -> woven (v :: vs) (v ++ c :: t).
