(** What the HTTP parser makes of arbitrary bytes, as a specification: relations over
    the text, independent of the parser's functions in Http.v.  From Http.v only the
    type [hkind] of parsed start lines is used, and from HttpSpec.v the meaning of the
    framing fields. *)
From Verif Require Export Http HttpSpec.
From Coq Require Import String List ZArith.
Open Scope list_scope.

Definition pairs : Type := list (bytes * bytes).
(** a line without its LF is blank *)
Definition blank (l : bytes) : Prop := l = [] \/ l = [CR].

(** ** Start lines.  White space at the end of the line does not count. *)
Definition trims_to (l t : bytes) : Prop :=
  exists w, l = t ++ w /\ forallb is_space w = true /\ no_ws_end t.
(** the rest of a URL after its host: the path, after a port if there is one *)
Inductive after_host : bytes -> bytes -> Prop :=
| ah_port p q : p <> [] -> forallb is_digit p = true -> (forall c t, q = c :: t -> is_digit c = false) ->
    after_host ([COLON] ++ p ++ q) q
| ah_plain r : (forall c t, r = COLON :: c :: t -> is_digit c = false) -> after_host r r.
(** the target is an absolute http(s) URL with this path *)
Definition absolute (target path : bytes) : Prop :=
  exists scheme host r, target = scheme ++ B "://" ++ host ++ r /\
    (lower scheme = B "http" \/ lower scheme = B "https") /\
    host <> [] /\ ~ In COLON host /\ ~ In 47%N host /\
    (r = [] \/ exists c t, r = c :: t /\ (c = COLON \/ c = 47%N)) /\ after_host r path.
(** [kind] is [None] for a request parser, and the method of the request for a
    response parser *)
Inductive start_line : option bytes -> bytes -> hkind -> Prop :=
| sl_status rm l version code c :
    trims_to l (version ++ [SP] ++ code) -> ~ In SP version -> ~ In SP code -> py_int 10 code = Some c ->
    start_line (Some rm) l (KResponse rm version c (Some []))
| sl_phrase rm l version code c phrase :
    trims_to l (version ++ [SP] ++ code ++ [SP] ++ phrase) -> ~ In SP version -> ~ In SP code -> py_int 10 code = Some c ->
    start_line (Some rm) l (KResponse rm version c (Some phrase))
| sl_connect l method host port version :
    trims_to l (method ++ [SP] ++ (host ++ [COLON] ++ port) ++ [SP] ++ version) -> ~ In SP method -> ~ In SP (host ++ [COLON] ++ port) ->
    upper method = B "CONNECT" -> ~ In COLON host -> ~ In COLON port ->
    start_line None l (KRequest method (host ++ [COLON] ++ port) version false)
| sl_url l method target path version :
    trims_to l (method ++ [SP] ++ target ++ [SP] ++ version) -> ~ In SP method -> ~ In SP target ->
    upper method <> B "CONNECT" -> absolute target path ->
    start_line None l (KRequest method (match path with [] => B "/" | _ => path end) version (match path with [] => true | _ => false end))
| sl_plain l method target version :
    trims_to l (method ++ [SP] ++ target ++ [SP] ++ version) -> ~ In SP method -> ~ In SP target ->
    upper method <> B "CONNECT" -> (forall path, ~ absolute target path) ->
    start_line None l (KRequest method target version false).
(** what the attributes are before a start line has been read *)
Definition unread_start (kind : option bytes) : hkind :=
  match kind with
  | None => KRequest [] [] [] false
  | Some rm => KResponse rm (B "HTTP/1.1") 0 None
  end.

(** ** Header and trailer lines.  The result: the fields, and the text behind the blank
    line if that was reached. *)
Inductive lines_read : pairs -> bytes -> outcome (pairs * option bytes) -> Prop :=
| lr_open acc text : no_lf text -> lines_read acc text (Ret (acc, None))
| lr_blank acc l rest : blank l -> lines_read acc (l ++ [LF] ++ rest) (Ret (acc, Some rest))
| lr_fold acc k v l rest o : no_lf l -> starts_blank l = true ->
    lines_read (acc ++ [(k, v ++ [SP] ++ strip l)]) rest o ->
    lines_read (acc ++ [(k, v)]) (l ++ [LF] ++ rest) o
| lr_fold_first l rest : no_lf l -> starts_blank l = true -> lines_read [] (l ++ [LF] ++ rest) (Raise EIndexError)
| lr_field acc n v rest o : no_lf n -> no_lf v -> ~ In COLON n -> starts_blank n = false ->
    lines_read (acc ++ [(strip n, strip v)]) rest o ->
    lines_read acc ((n ++ [COLON] ++ v) ++ [LF] ++ rest) o
| lr_no_colon acc l rest : no_lf l -> ~ blank l -> starts_blank l = false -> ~ In COLON l ->
    lines_read acc (l ++ [LF] ++ rest) (Raise EValueError).

(** ** Framing *)
(** a Content-Length that counts, is not an integer, and no field before it has settled
    how the body is framed *)
Definition bad_length (ign : list bytes) (l : pairs) : Prop :=
  exists a n v b, l = a ++ (n, v) :: b /\ lower n = B "content-length" /\ ~ In (B "content-length") ign /\
    length_value ign a = None /\ says_chunked ign a = false /\ py_int 10 (lower v) = None.
Inductive framing : Type := NoBody | InChunks | Sized (n : Z) | Zipped (n : Z) | ToClose.
Definition has_none (s : hkind) : Prop :=
  match s with KResponse rm _ code _ => bodyless rm code | KRequest _ _ _ _ => False end.
Inductive framed (ign : list bytes) (s : hkind) (l : pairs) : framing -> Prop :=
| fr_none : has_none s -> framed ign s l NoBody
| fr_chunked : ~ has_none s -> says_chunked (ignored ign) l = true -> framed ign s l InChunks
| fr_sized v n : ~ has_none s -> says_chunked (ignored ign) l = false ->
    length_value (ignored ign) l = Some v -> py_int 10 v = Some n ->
    framed ign s l (if gzip_coded ign l then Zipped n else Sized n)
| fr_request a b c d : s = KRequest a b c d -> says_chunked (ignored ign) l = false ->
    length_value (ignored ign) l = None -> framed ign s l NoBody
| fr_close a b c d : s = KResponse a b c d -> ~ has_none s -> says_chunked (ignored ign) l = false ->
    length_value (ignored ign) l = None -> framed ign s l ToClose.

(** ** Chunks *)
(** the size on a size line: everything after a semicolon is ignored *)
Definition size_of (l : bytes) (o : option Z) : Prop :=
  (exists a e, l = a ++ [59%N] ++ e /\ ~ In 59%N a /\ o = py_int 16 a) \/ (~ In 59%N l /\ o = py_int 16 l).
(** data, trailers, and the text behind the body if its end was reached; [Ret None]: this
    is not a chunked body at all.  The first argument: no size line has been read. *)
Definition chunk_end : Type := option (bytes * pairs * option bytes).
Definition put_data (d : bytes) (o : outcome chunk_end) : outcome chunk_end :=
  match o with
  | Ret (Some (b, t, r)) => Ret (Some (d ++ b, t, r))
  | _ => o
  end.
Definition put_trailers (o : outcome (pairs * option bytes)) : outcome chunk_end :=
  match o with
  | Ret (t, r) => Ret (Some ([], t, r))
  | Raise e => Raise e
  | Diverge => Diverge
  end.
Inductive chunks_read : bool -> bytes -> outcome chunk_end -> Prop :=
| cr_open first text : no_lf text -> chunks_read first text (Ret (Some ([], [], None)))
| cr_not_chunks l rest : no_lf l -> size_of l None -> chunks_read true (l ++ [LF] ++ rest) (Ret None)
| cr_bad_size l rest : no_lf l -> size_of l None -> chunks_read false (l ++ [LF] ++ rest) (Raise EValueError)
| cr_last first l rest o : no_lf l -> size_of l (Some 0%Z) -> lines_read [] rest o ->
    chunks_read first (l ++ [LF] ++ rest) (put_trailers o)
| cr_negative first l n rest : no_lf l -> size_of l (Some n) -> (n < 0)%Z -> rest <> [] ->
    chunks_read first (l ++ [LF] ++ rest) Diverge
| cr_negative_end first l n : no_lf l -> size_of l (Some n) -> (n < 0)%Z ->
    chunks_read first (l ++ [LF]) (Ret (Some ([], [], None)))
| cr_short first l n d : no_lf l -> size_of l (Some n) -> (Z.of_nat (List.length d) < n)%Z ->
    chunks_read first (l ++ [LF] ++ d) (Ret (Some (d, [], None)))
| cr_data_open first l d more : no_lf l -> d <> [] -> size_of l (Some (Z.of_nat (List.length d))) -> no_lf more ->
    chunks_read first (l ++ [LF] ++ d ++ more) (Ret (Some (d, [], None)))
| cr_data first l d drop more o : no_lf l -> d <> [] -> size_of l (Some (Z.of_nat (List.length d))) -> no_lf drop ->
    chunks_read false more o ->
    chunks_read first (l ++ [LF] ++ d ++ drop ++ [LF] ++ more) (put_data d o).

(** ** Bodies *)
Record body_result : Type := mkres {
  b_complete : bool; b_body : bytes; b_trailers : pairs;
  b_taken : bytes;               (** what is added to the message *)
  b_unread : bytes }.
Section Gz.
  (** GzipFile(fileobj=BytesIO(b)).read() (oracle) *)
  Variable gz : bytes -> outcome bytes.
  Inductive body_read : framing -> bytes -> outcome body_result -> Prop :=
  | br_none rest : body_read NoBody rest (Ret (mkres true [] [] [] rest))
  | br_close rest : body_read ToClose rest (Ret (mkres false rest [] rest []))
  (** a Content-Length *)
  | br_full b rest : body_read (Sized (Z.of_nat (List.length b))) (b ++ rest) (Ret (mkres true b [] b rest))
  | br_short n b : (Z.of_nat (List.length b) < n)%Z -> body_read (Sized n) b (Ret (mkres false b [] b []))
  | br_negative n rest : (n < 0)%Z -> rest <> [] -> body_read (Sized n) rest (Ret (mkres true [] [] [] rest))
  | br_negative_end n : (n < 0)%Z -> body_read (Sized n) [] (Ret (mkres false [] [] [] []))
  (** a Content-Length with a gzip coding: the data takes the place of the body, and
      all of the text counts as read *)
  | br_gz n rest d : gz (slice rest 0 n) = Ret d -> d <> [] -> rest <> [] -> body_read (Zipped n) rest (Ret (mkres true d [] d []))
  | br_gz_wait n d : gz (slice [] 0 n) = Ret d -> d <> [] -> body_read (Zipped n) [] (Ret (mkres false [] [] [] []))
  | br_gz_empty n rest : gz (slice rest 0 n) = Ret [] -> body_read (Zipped n) rest (Ret (mkres true [] [] [] rest))
  | br_gz_plain n rest : gz (slice rest 0 n) = Raise EOSError -> body_read (Zipped n) rest (Ret (mkres true rest [] rest []))
  | br_gz_raise n rest e : gz (slice rest 0 n) = Raise e -> e <> EOSError -> body_read (Zipped n) rest (Raise e)
  | br_gz_loop n rest : gz (slice rest 0 n) = Diverge -> body_read (Zipped n) rest Diverge
  (** chunks *)
  | br_chunks_open rest d t : chunks_read true rest (Ret (Some (d, t, None))) -> body_read InChunks rest (Ret (mkres false d t rest []))
  | br_chunks_done taken more d t : chunks_read true (taken ++ more) (Ret (Some (d, t, Some more))) ->
      body_read InChunks (taken ++ more) (Ret (mkres true d t taken more))
  | br_not_chunks rest : chunks_read true rest (Ret None) -> body_read InChunks rest (Ret (mkres false rest [] rest []))
  | br_chunks_raise rest e : chunks_read true rest (Raise e) -> body_read InChunks rest (Raise e)
  | br_chunks_loop rest : chunks_read true rest Diverge -> body_read InChunks rest Diverge.

  (** ** Messages *)
  Record view : Type := mkview {
    v_complete : bool; v_headers_complete : bool;
    v_start : hkind; v_headers : pairs; v_trailers : pairs;
    v_keep_alive : bool; v_expect : bool;
    v_body : bytes; v_message : bytes;
    v_interim : list (hkind * pairs) }.
  (** nothing more than a start line and some fields *)
  Definition early (s : hkind) (l : pairs) (message : bytes) : view :=
    mkview false false s l [] false false [] message [].
  Definition with_body (ign : list bytes) (s : hkind) (l : pairs) (head : bytes) (r : body_result) : view :=
    mkview (b_complete r) true s l (b_trailers r)
      (says_keep_alive (ignored ign) l) (existsb (contains (B "100-continue")) (named (ignored ign) (B "expect") l))
      (b_body r) (head ++ b_taken r) [].
  (** one message from a fresh parser *)
  Inductive one_read (kind : option bytes) (ign : list bytes) : bytes -> outcome (view * bytes) -> Prop :=
  | or_no_line text : no_lf text -> one_read kind ign text (Ret (early (unread_start kind) [] text, []))
  | or_blank l rest : blank l ->
      one_read kind ign (l ++ [LF] ++ rest) (Ret (early (unread_start kind) [] (l ++ [LF]), rest))
  | or_bad_start l rest : no_lf l -> ~ blank l -> (forall s, ~ start_line kind l s) ->
      one_read kind ign (l ++ [LF] ++ rest) (Raise EValueError)
  | or_open l rest s fields : no_lf l -> ~ blank l -> start_line kind l s -> lines_read [] rest (Ret (fields, None)) ->
      one_read kind ign (l ++ [LF] ++ rest) (Ret (early s fields (l ++ [LF] ++ rest), []))
  | or_bad_lines l rest s e : no_lf l -> ~ blank l -> start_line kind l s -> lines_read [] rest (Raise e) ->
      one_read kind ign (l ++ [LF] ++ rest) (Raise e)
  | or_bad_length l rest s fields body : no_lf l -> ~ blank l -> start_line kind l s ->
      lines_read [] rest (Ret (fields, Some body)) -> bad_length (ignored ign) fields ->
      one_read kind ign (l ++ [LF] ++ rest) (Raise EValueError)
  | or_body l h body s fields fr o : no_lf l -> ~ blank l -> start_line kind l s ->
      lines_read [] (h ++ body) (Ret (fields, Some body)) -> ~ bad_length (ignored ign) fields ->
      framed ign s fields fr -> body_read fr body o ->
      one_read kind ign (l ++ [LF] ++ h ++ body)
        (match o with
         | Ret r => Ret (with_body ign s fields (l ++ [LF] ++ h) r, b_unread r)
         | Raise e => Raise e
         | Diverge => Diverge
         end).
  Definition is_continue (v : view) : Prop :=
    v_complete v = true /\ exists rm version phrase, v_start v = KResponse rm version 100 phrase.
  (** what came before stays in the message *)
  Definition after (v0 : view) (o : outcome (view * bytes)) : outcome (view * bytes) :=
    match o with
    | Ret (v, rest) =>
        Ret (mkview (v_complete v) (v_headers_complete v) (v_start v) (v_headers v) (v_trailers v) (v_keep_alive v) (v_expect v)
                    (v_body v) (v_message v0 ++ v_message v) [(v_start v0, v_headers v0)], rest)
    | _ => o
    end.
  (** one call of feed: after a "100 Continue" the rest is read as one more message, with
      no field ignored any more *)
  Inductive reads (kind : option bytes) (ign : list bytes) (text : bytes) : outcome (view * bytes) -> Prop :=
  | rd_message v rest : one_read kind ign text (Ret (v, rest)) -> ~ is_continue v -> reads kind ign text (Ret (v, rest))
  | rd_raise e : one_read kind ign text (Raise e) -> reads kind ign text (Raise e)
  | rd_loop : one_read kind ign text Diverge -> reads kind ign text Diverge
  | rd_continue v rest o : one_read kind ign text (Ret (v, rest)) -> is_continue v ->
      one_read kind [] rest o -> reads kind ign text (after v o).
End Gz.
