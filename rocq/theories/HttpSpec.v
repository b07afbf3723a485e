(** What an HTTP message looks like on the wire, and what a user expects to read
    from it.  Written from RFC 7230 and independently of the parser in Http.v. *)
From Verif Require Export PyBytes.
From Coq Require Import String List.
Open Scope list_scope.

Definition no_lf (s : bytes) : Prop := ~ In LF s.
(** a line ends with CR LF or with LF alone *)
Definition eol (crlf : bool) : bytes := if crlf then CRLF else [LF].
Definition starts_blank (s : bytes) : bool :=
  match s with c :: _ => N.eqb c SP || N.eqb c TAB | [] => false end.

(** A header field: name ":" value, then any number of folded lines (each begins with
    a space or a tab), every line with its own ending. *)
Record hfield : Type := mkfield {
  f_name : bytes; f_value : bytes; f_crlf : bool; f_folds : list (bytes * bool) }.
Definition fold_text (x : bytes * bool) : bytes := fst x ++ eol (snd x).
Definition field_text (f : hfield) : bytes :=
  f_name f ++ [COLON] ++ f_value f ++ eol (f_crlf f) ++ concat (map fold_text (f_folds f)).
Definition field_ok (f : hfield) : Prop :=
  no_lf (f_name f) /\ no_lf (f_value f) /\ ~ In COLON (f_name f) /\ starts_blank (f_name f) = false /\
  Forall (fun x => no_lf (fst x) /\ starts_blank (fst x) = true) (f_folds f).
(** what it means: the name, and the value with its folded lines joined by single
    spaces; white space around each part does not count *)
Definition field_pair (f : hfield) : bytes * bytes :=
  (strip (f_name f), strip (f_value f) ++ concat (map (fun x => [SP] ++ strip (fst x)) (f_folds f))).

(** A message head: start line, fields, blank line. *)
Record msg_head : Type := mkhead {
  hd_start : bytes; hd_start_crlf : bool; hd_fields : list hfield; hd_end_crlf : bool }.
Definition fields_text (fs : list hfield) : bytes := concat (map field_text fs).
Definition head_text (h : msg_head) : bytes :=
  hd_start h ++ eol (hd_start_crlf h) ++ fields_text (hd_fields h) ++ eol (hd_end_crlf h).
Definition head_ok (h : msg_head) : Prop :=
  no_lf (hd_start h) /\ hd_start h <> [] /\ hd_start h <> [CR] /\ Forall field_ok (hd_fields h).
Definition head_pairs (h : msg_head) : list (bytes * bytes) := map field_pair (hd_fields h).

(** ** Start lines *)
(** decimal and hexadecimal numerals *)
Definition hex_digit (c : N) : option Z :=
  if is_digit c then Some (Z.of_N c - 48)%Z
  else if N.leb 97 c && N.leb c 102 then Some (Z.of_N c - 87)%Z
  else if N.leb 65 c && N.leb c 70 then Some (Z.of_N c - 55)%Z
  else None.
Definition is_hex (c : N) : bool := match hex_digit c with Some _ => true | None => false end.
Definition hex_value (s : bytes) : Z :=
  fold_left (fun a c => (16 * a + match hex_digit c with Some d => d | None => 0 end)%Z) s 0%Z.
Definition dec_value (s : bytes) : Z :=
  fold_left (fun a c => (10 * a + (Z.of_N c - 48))%Z) s 0%Z.

Definition no_ws_end (s : bytes) : Prop := forall t c, s = t ++ [c] -> is_space c = false.
(** a response status line and what it says *)
Inductive status_line : bytes -> bytes -> Z -> bytes -> Prop :=
| status_full version code phrase :
    ~ In SP version -> code <> [] -> forallb is_digit code = true -> no_ws_end phrase ->
    status_line (version ++ [SP] ++ code ++ [SP] ++ phrase) version (dec_value code) phrase
| status_bare version code :
    ~ In SP version -> code <> [] -> forallb is_digit code = true ->
    status_line (version ++ [SP] ++ code) version (dec_value code) [].
(** an absolute http or https URL: scheme in any case, host without colon or slash, an
    optional decimal port, and a path that is empty or begins with a slash *)
Record abs_url : Type := mkurl { u_scheme : bytes; u_host : bytes; u_port : option bytes; u_path : bytes }.
Definition url_text (u : abs_url) : bytes :=
  u_scheme u ++ B "://" ++ u_host u ++ (match u_port u with Some p => [COLON] ++ p | None => [] end) ++ u_path u.
Definition url_ok (u : abs_url) : Prop :=
  (lower (u_scheme u) = B "http" \/ lower (u_scheme u) = B "https") /\
  u_host u <> [] /\ ~ In COLON (u_host u) /\ ~ In 47%N (u_host u) /\
  (match u_port u with Some p => p <> [] /\ forallb is_digit p = true | None => True end) /\
  (u_path u = [] \/ exists t, u_path u = 47%N :: t) /\ no_lf (u_path u).
(** a request line and what it says: method, target, version.  The last argument tells
    that the target is a text string, not bytes *)
Inductive request_line : bytes -> bytes -> bytes -> bytes -> bool -> Prop :=
| request_path method target version :          (* a path, or "*" *)
    ~ In SP method -> ~ In SP target -> version <> [] -> no_ws_end version ->
    upper method <> B "CONNECT" -> (exists c t, target = c :: t /\ c <> 104%N /\ c <> 72%N) ->
    request_line (method ++ [SP] ++ target ++ [SP] ++ version) method target version false
| request_url method u version :                (* an absolute URL: only its path is kept *)
    ~ In SP method -> url_ok u -> ~ In SP (url_text u) -> version <> [] -> no_ws_end version ->
    upper method <> B "CONNECT" ->
    request_line (method ++ [SP] ++ url_text u ++ [SP] ++ version) method
      (match u_path u with [] => B "/" | p => p end) version (match u_path u with [] => true | _ => false end)
| request_connect method host port version :    (* CONNECT host:port *)
    ~ In SP method -> ~ In SP host -> ~ In SP port -> version <> [] -> no_ws_end version ->
    upper method = B "CONNECT" -> ~ In COLON host -> ~ In COLON port ->
    request_line (method ++ [SP] ++ (host ++ [COLON] ++ port) ++ [SP] ++ version) method (host ++ [COLON] ++ port) version false.

(** ** Framing *)
(** the values of the fields called [n] (in any case), in lower case; the names in
    [ign] (in lower case) do not count *)
Definition named (ign : list bytes) (n : bytes) (l : list (bytes * bytes)) : list bytes :=
  map (fun nv => lower (snd nv))
      (filter (fun nv => bytes_eqb (lower (fst nv)) n && negb (in_list n ign)) l).
Definition says_chunked (ign : list bytes) (l : list (bytes * bytes)) : bool :=
  existsb (contains (B "chunked")) (named ign (B "transfer-encoding") l).
Definition length_value (ign : list bytes) (l : list (bytes * bytes)) : option bytes :=
  hd_error (named ign (B "content-length") l).
Definition coding (ign : list bytes) (l : list (bytes * bytes)) : option bytes :=
  hd_error (rev (named ign (B "content-encoding") l)).
(** the last Connection field that says keep-alive or close decides; without one the
    connection is taken not to be kept alive, whatever the version *)
Definition says_keep_alive (ign : list bytes) (l : list (bytes * bytes)) : bool :=
  match find (fun v => contains (B "keep-alive") v || contains (B "close") v) (rev (named ign (B "connection") l)) with
  | Some v => contains (B "keep-alive") v
  | None => false
  end.
(** names given to a parser to ignore, in any case *)
Definition ignored (ign : list bytes) : list bytes := map lower ign.
(** the last content coding ends in "gzip" *)
Definition gzip_coded (ign : list bytes) (pairs : list (bytes * bytes)) : bool :=
  match coding (ignored ign) pairs with Some e => endswith (B "gzip") e | None => false end.
(** the first Content-Length, the one that counts, is an integer *)
Definition length_readable (ign : list bytes) (l : list (bytes * bytes)) : Prop :=
  forall v, length_value ign l = Some v -> py_int 10 v <> None.
(** a response to HEAD, or with one of these codes, never has a body *)
Definition bodyless (request_method : bytes) (code : Z) : Prop :=
  request_method = B "HEAD" \/ (100 <= code < 200)%Z \/ code = 204%Z \/ code = 304%Z.

(** ** Chunked bodies *)
(** one chunk: size in hexadecimal, an extension, data *)
Record chunk : Type := mkchunk {
  c_size : bytes; c_ext : bytes; c_crlf1 : bool; c_data : bytes; c_crlf2 : bool }.
Definition ext_ok (e : bytes) : Prop := no_lf e /\ (e = [] \/ exists t, e = 59%N :: t).
Definition chunk_text (c : chunk) : bytes :=
  c_size c ++ c_ext c ++ eol (c_crlf1 c) ++ c_data c ++ eol (c_crlf2 c).
Definition chunk_ok (c : chunk) : Prop :=
  c_size c <> [] /\ forallb is_hex (c_size c) = true /\ ext_ok (c_ext c) /\ c_data c <> [] /\
  hex_value (c_size c) = Z.of_nat (List.length (c_data c)).
(** the body: chunks, the last chunk, trailer fields, blank line *)
Record chunked : Type := mkchunked {
  k_chunks : list chunk; k_last : bytes; k_ext : bytes; k_crlf : bool;
  k_trailers : list hfield; k_end_crlf : bool }.
Definition chunked_text (k : chunked) : bytes :=
  concat (map chunk_text (k_chunks k)) ++ k_last k ++ k_ext k ++ eol (k_crlf k) ++
  fields_text (k_trailers k) ++ eol (k_end_crlf k).
Definition chunked_ok (k : chunked) : Prop :=
  Forall chunk_ok (k_chunks k) /\ k_last k <> [] /\ forallb (N.eqb 48) (k_last k) = true /\
  ext_ok (k_ext k) /\ Forall field_ok (k_trailers k).
Definition chunked_data (k : chunked) : bytes := concat (map c_data (k_chunks k)).
