(** RequestHeader with the attributes host, port, scheme and url that Http.v leaves
    out (hanzo/httptools/messaging.py:513-574).  [r_base] is the header of Http.v: the
    simulation lemmas at the end say that the two models agree on it. *)
From Verif Require Export Http.
From Coq Require Import String List ZArith.
Open Scope list_scope.

(** attribute values: text strings, byte strings and integers do not mix on Python 3 *)
Inductive pyval : Type := PText (s : bytes) | PBytes (s : bytes) | PInt (z : Z).

Record rhdr : Type := mkrhdr { r_base : hdr; r_host : pyval; r_port : pyval; r_scheme : pyval }.

(** RequestHeader.__init__, messaging.py:515-523 *)
Definition new_rhdr (ignore : list bytes) : rhdr :=
  mkrhdr (new_request_hdr ignore) (PText []) (PInt 80) (PText (B "http")).

Definition with_base (r : rhdr) (b : hdr) : rhdr := mkrhdr b (r_host r) (r_port r) (r_scheme r).

(** the host part of RequestHeader.add_header, messaging.py:534-540 *)
Definition note_host (r : rhdr) (nv : bytes * bytes) : rhdr :=
  if bytes_eqb (lower (fst nv)) (B "host") then
    match split_once COLON (snd nv) with
    | Some (h, p) => mkrhdr (r_base r) (PBytes h) (PBytes p) (r_scheme r)
    | None => mkrhdr (r_base r) (PBytes (snd nv)) (r_port r) (r_scheme r)
    end
  else r.
(** RequestHeader.add_header, messaging.py:534-542 *)
Definition r_add_header (r : rhdr) (before : list (bytes * bytes)) (nv : bytes * bytes) : rhdr :=
  let r' := note_host r nv in with_base r' (set_headers (r_base r') (before ++ [nv])).

(** HTTPHeader.add_header_line with that add_header, messaging.py:456-498 *)
Definition r_add_header_line (r : rhdr) (line : bytes) : outcome rhdr :=
  let hs := h_headers (r_base r) in
  if is_folded line then
    match rev hs with
    | [] => Raise EIndexError
    | (k, v) :: t => Ret (r_add_header r (rev t) (k, v ++ [SP] ++ strip line))
    end
  else if in_list line NEWLINES then bind (note_headers (r_base r) hs) (fun b => Ret (with_base r b))
  else bind (split_field line) (fun nv => Ret (r_add_header r hs nv)).

(** RequestHeader.set_start_line, messaging.py:544-568 *)
Definition r_set_start_line (r : rhdr) (line : bytes) : outcome rhdr :=
  bind (set_start_line (r_base r) line) (fun b =>
    match split_max 2 SP (rstrip line) with
    | [method; target; version] =>
        if bytes_eqb (upper method) (B "CONNECT") then
          match split_all COLON target with
          | [h; p] => Ret (mkrhdr b (PBytes h) (PBytes p) (r_scheme r))
          | _ => Raise EValueError
          end
        else
          match re_match url_rx target with
          | Some g =>
              (* group('port') is None or not empty *)
              match group 4 g with
              | [] => Ret (mkrhdr b (PBytes (group 3 g)) (PInt 80) (PBytes (group 2 g)))
              | p => match py_int 10 p with
                     | Some z => Ret (mkrhdr b (PBytes (group 3 g)) (PInt z) (PBytes (group 2 g)))
                     | None => Raise EValueError
                     end
              end
          | None => Ret (with_base r b)
          end
    | _ => Raise EValueError
    end).

(** the calls HTTPMessage.feed makes on its header for the lines of a head
    (messaging.py:191-212): the start line, then the others *)
Fixpoint r_add_lines (r : rhdr) (lines : list bytes) : outcome rhdr :=
  match lines with
  | [] => Ret r
  | l :: t => bind (r_add_header_line r l) (fun r' => r_add_lines r' t)
  end.
Definition r_head (r : rhdr) (lines : list bytes) : outcome rhdr :=
  match lines with
  | [] => Ret r
  | l :: t => bind (r_set_start_line r l) (fun r' => r_add_lines r' t)
  end.

(** repr(b) for byte strings: the quote is ' unless the string holds a ' and no
    double quote; that quote and backslashes are escaped with a backslash, tab, newline
    and carriage return are \t \n \r, other bytes outside 32..126 are \xhh *)
Definition hex_char (n : N) : N := if N.ltb n 10 then (48 + n)%N else (87 + n)%N.
Definition repr_byte (quote c : N) : bytes :=
  if N.eqb c quote || N.eqb c 92 then [92%N; c]
  else if N.eqb c 9 then [92; 116]%N
  else if N.eqb c 10 then [92; 110]%N
  else if N.eqb c 13 then [92; 114]%N
  else if N.ltb c 32 || N.leb 127 c then [92; 120; hex_char (N.div c 16); hex_char (N.modulo c 16)]%N
  else [c].
Definition repr_bytes (s : bytes) : bytes :=
  let quote := if existsb (N.eqb 39) s && negb (existsb (N.eqb 34) s) then 34%N else 39%N in
  [98%N; quote] ++ concat (map (repr_byte quote) s) ++ [quote].
(** '%s' % v *)
Definition show (v : pyval) : bytes :=
  match v with PText s => s | PBytes s => repr_bytes s | PInt z => dec_Z z end.
(** self.target_uri *)
Definition r_target (r : rhdr) : pyval :=
  match h_kind (r_base r) with
  | KRequest [] [] [] _ => PText []             (* before the start line *)
  | KRequest _ t _ text => if text then PText t else PBytes t
  | KResponse _ _ _ _ => PText []
  end.
Definition is_text (t : bytes) (v : pyval) : bool := match v with PText s => bytes_eqb s t | _ => false end.
Definition is_int (n : Z) (v : pyval) : bool := match v with PInt z => Z.eqb z n | _ => false end.
(** RequestHeader.url, messaging.py:525-531 *)
Definition r_url (r : rhdr) : bytes :=
  if (is_text (B "http") (r_scheme r) && is_int 80 (r_port r)) || (is_text (B "https") (r_scheme r) && is_int 80 (r_port r))
  then show (r_scheme r) ++ B "://" ++ show (r_host r) ++ show (r_target r)
  else show (r_scheme r) ++ B "://" ++ show (r_host r) ++ B ":" ++ show (r_port r) ++ show (r_target r).

