(** The HTTP message parser: hanzo/httptools/messaging.py and semantics.py.

    Simplifications: an exception leaves no state behind ([outcome] carries the new
    state only on success); [url], [host], [port] and [scheme] are not modelled
    (CONNECT start lines still raise where the code does); the empty text strings
    returned by some paths ('' instead of b'') are the empty byte string; [bool]
    keeps track of the one attribute that can become a text string (target_uri). *)
From Verif Require Export Regex.
From Coq Require Import String List.
Open Scope list_scope.

(** NEWLINES, messaging.py:24 *)
Definition NEWLINES : list bytes := [CRLF; [LF]].
(** Python's b[:n] and b[n:] for an integer n *)
Definition py_take (n : Z) (s : bytes) : bytes := slice s 0 n.

(** ** semantics.py *)
(** Methods.no_body, semantics.py:18; Codes.no_body, semantics.py:102-104 *)
Definition code_no_body (code : Z) : bool :=
  ((100 <=? code) && (code <? 200) || (code =? 204) || (code =? 304))%Z.
Definition method_no_body (m : bytes) : bool := in_list m [B "HEAD"].

(** ** Headers, messaging.py:402-505 *)
Inductive bmode : Type := MClose | MLength | MChunked.
(** RequestHeader (messaging.py:513-574) and ResponseHeader (577-624) *)
Inductive hkind : Type :=
| KRequest (method target version : bytes) (target_is_text : bool)
| KResponse (request_method version : bytes) (code : Z) (phrase : option bytes).
    (** phrase [None]: the initial text string "Empty Response" *)
Record hdr : Type := mkhdr {
  h_kind : hkind;
  h_headers : list (bytes * bytes);
  h_trailers : list (bytes * bytes);
  h_keep_alive : bool;
  h_mode : bmode;
  h_length : option Z;
  h_encoding : option bytes;
  h_expect : bool;
  h_ignore : list bytes }.
Definition new_hdr (k : hkind) (ignore : list bytes) : hdr :=
  mkhdr k [] [] false MClose None None false (map lower ignore).
Definition new_request_hdr (ignore : list bytes) : hdr :=
  new_hdr (KRequest [] [] [] false) ignore.
Definition new_response_hdr (request_method : bytes) (ignore : list bytes) : hdr :=
  new_hdr (KResponse request_method (B "HTTP/1.1") 0 None) ignore.

Definition set_kind (h : hdr) (k : hkind) : hdr :=
  mkhdr k (h_headers h) (h_trailers h) (h_keep_alive h) (h_mode h) (h_length h) (h_encoding h) (h_expect h) (h_ignore h).
Definition set_headers (h : hdr) (l : list (bytes * bytes)) : hdr :=
  mkhdr (h_kind h) l (h_trailers h) (h_keep_alive h) (h_mode h) (h_length h) (h_encoding h) (h_expect h) (h_ignore h).
Definition set_trailers (h : hdr) (l : list (bytes * bytes)) : hdr :=
  mkhdr (h_kind h) (h_headers h) l (h_keep_alive h) (h_mode h) (h_length h) (h_encoding h) (h_expect h) (h_ignore h).
Definition set_keep (h : hdr) (b : bool) : hdr :=
  mkhdr (h_kind h) (h_headers h) (h_trailers h) b (h_mode h) (h_length h) (h_encoding h) (h_expect h) (h_ignore h).
Definition set_hmode (h : hdr) (m : bmode) : hdr :=
  mkhdr (h_kind h) (h_headers h) (h_trailers h) (h_keep_alive h) m (h_length h) (h_encoding h) (h_expect h) (h_ignore h).
Definition set_length (h : hdr) (z : Z) : hdr :=
  mkhdr (h_kind h) (h_headers h) (h_trailers h) (h_keep_alive h) MLength (Some z) (h_encoding h) (h_expect h) (h_ignore h).
Definition set_encoding (h : hdr) (v : bytes) : hdr :=
  mkhdr (h_kind h) (h_headers h) (h_trailers h) (h_keep_alive h) (h_mode h) (h_length h) (Some v) (h_expect h) (h_ignore h).
Definition set_expect (h : hdr) : hdr :=
  mkhdr (h_kind h) (h_headers h) (h_trailers h) (h_keep_alive h) (h_mode h) (h_length h) (h_encoding h) true (h_ignore h).

(** the body of the loop at the blank line, messaging.py:464-492 *)
Definition note_header (h : hdr) (nv : bytes * bytes) : outcome hdr :=
  let name := lower (fst nv) in
  let value := lower (snd nv) in
  if in_list name (h_ignore h) then Ret h
  else if bytes_eqb name (B "expect") then
    Ret (if contains (B "100-continue") value then set_expect h else h)
  else if bytes_eqb name (B "content-length") then
    match h_mode h with
    | MClose => match py_int 10 value with
                | Some z => Ret (set_length h z)
                | None => Raise EValueError
                end
    | _ => Ret h
    end
  else if bytes_eqb name (B "transfer-encoding") then
    Ret (if contains (B "chunked") value then set_hmode h MChunked else h)
  else if bytes_eqb name (B "content-encoding") then Ret (set_encoding h value)
  else if bytes_eqb name (B "connection") then
    Ret (if contains (B "keep-alive") value then set_keep h true
         else if contains (B "close") value then set_keep h false
         else h)
  else Ret h.
Fixpoint note_headers (h : hdr) (l : list (bytes * bytes)) : outcome hdr :=
  match l with
  | [] => Ret h
  | nv :: t => bind (note_header h nv) (fun h' => note_headers h' t)
  end.

(** line.startswith(b' ') or line.startswith(b'\t') *)
Definition is_folded (line : bytes) : bool := startswith [SP] line || startswith [TAB] line.
(** the pair appended for a line that is neither folded nor blank,
    messaging.py:495-498 and 448-451; ValueError when there is no colon *)
Definition split_field (line : bytes) : outcome (bytes * bytes) :=
  match split_once COLON line with
  | Some (n, v) => Ret (strip n, strip v)
  | None => Raise EValueError
  end.
(** pop, extend, push: messaging.py:458-461 and 441-444 *)
Definition fold_last (l : list (bytes * bytes)) (line : bytes) : outcome (list (bytes * bytes)) :=
  match rev l with
  | [] => Raise EIndexError
  | (k, v) :: t => Ret (rev t ++ [(k, v ++ [SP] ++ strip line)])
  end.
(** HTTPHeader.add_header_line, messaging.py:456-498 *)
Definition add_header_line (h : hdr) (line : bytes) : outcome hdr :=
  if is_folded line then
    bind (fold_last (h_headers h) line) (fun l => Ret (set_headers h l))
  else if in_list line NEWLINES then note_headers h (h_headers h)
  else bind (split_field line) (fun nv => Ret (set_headers h (h_headers h ++ [nv]))).
(** HTTPHeader.add_trailer_line, messaging.py:439-451 *)
Definition add_trailer_line (h : hdr) (line : bytes) : outcome hdr :=
  if is_folded line then
    bind (fold_last (h_trailers h) line) (fun l => Ret (set_trailers h l))
  else if in_list line NEWLINES then Ret h
  else bind (split_field line) (fun nv => Ret (set_trailers h (h_trailers h ++ [nv]))).

(** url_rx, messaging.py:507-510; groups: 1 path, 2 scheme, 3 host, 4 port, 5 authority *)
Definition no_colon_slash (c : N) : bool := negb (N.eqb c 58 || N.eqb c 47).
Definition url_rx : re :=
  RSeq (RGrp 2 (RSeq (rstr_i (B "http")) (ropt (lit_i 115)))) (RSeq (rstr (B "://"))
  (RSeq (RGrp 5 (RSeq (RGrp 3 (rplus true no_colon_slash)) (ropt (RSeq (lit 58) (RGrp 4 (rplus true is_digit))))))
  (RGrp 1 (RStar true dot)))).

(** RequestHeader.set_start_line, messaging.py:544-568; ResponseHeader.set_start_line,
    messaging.py:606-613.  (The comparisons with text strings are never true.) *)
Definition set_start_line (h : hdr) (line : bytes) : outcome hdr :=
  match h_kind h with
  | KRequest _ _ _ _ =>
      match split_max 2 SP (rstrip line) with
      | [method; target; version] =>
          if bytes_eqb (upper method) (B "CONNECT") then
            match split_all COLON target with
            | [_; _] => Ret (set_kind h (KRequest method target version false))
            | _ => Raise EValueError
            end
          else
            match re_match url_rx target with
            | Some g =>
                let path := group 1 g in
                Ret (set_kind h (match path with
                                 | [] => KRequest method (B "/") version true
                                 | _ => KRequest method path version false
                                 end))
            | None => Ret (set_kind h (KRequest method target version false))
            end
      | _ => Raise EValueError
      end
  | KResponse rm _ _ _ =>
      match split_max 2 SP (rstrip line) with
      | version :: code :: rest =>
          match py_int 10 code with
          | Some c =>
              let h' := set_kind h (KResponse rm version c
                          (Some match rest with p :: _ => p | [] => [] end)) in
              Ret (if bytes_eqb version (B "HTTP/1.0") then set_keep h' false else h')
          | None => Raise EValueError
          end
      | _ => Raise EValueError
      end
  end.

(** RequestHeader.has_body, messaging.py:570-571; ResponseHeader.has_body, 615-621 *)
Definition has_body (h : hdr) : bool :=
  match h_kind h with
  | KRequest _ _ _ _ => match h_mode h with MClose => false | _ => true end
  | KResponse rm _ code _ => negb (method_no_body rm) && negb (code_no_body code)
  end.
(** body_is_chunked, body_length: messaging.py:500-505 *)
Definition body_is_chunked (h : hdr) : bool := match h_mode h with MChunked => true | _ => false end.
Definition body_length (h : hdr) : option Z := match h_mode h with MLength => h_length h | _ => None end.

(** ** Messages *)
Inductive mmode : Type := Start | Headers | Body | End | Incomplete.
Inductive cmode : Type := CStart | CChunk | CTrailer | CEnd.
(** ChunkReader (messaging.py:266-353), LengthReader (356-369), ZipLengthReader
    (372-399; the decompressed text if there is any) *)
Inductive reader : Type :=
| RChunk (mode : cmode) (start : bool) (remaining : Z)
| RLength (remaining : Z)
| RZip (text : option bytes) (remaining : Z).
Record msg : Type := mkmsg {
  m_buf : bytes;
  m_off : nat;
  m_head : hdr;
  m_chunks : list (nat * Z);      (** body_chunks: offset and length *)
  m_mode : mmode;
  m_reader : option reader;
  m_interim : list hdr }.         (** ResponseMessage.interim *)

(** HTTPMessage.__init__ with the two header classes, messaging.py:35-41, 627-642 *)
Definition new_msg (h : hdr) : msg := mkmsg [] 0 h [] Start None [].
Definition new_request (ignore : list bytes) : msg := new_msg (new_request_hdr ignore).
Definition new_response (request_method : bytes) (ignore : list bytes) : msg :=
  new_msg (new_response_hdr request_method ignore).

Definition set_buf (m : msg) (b : bytes) (o : nat) : msg :=
  mkmsg b o (m_head m) (m_chunks m) (m_mode m) (m_reader m) (m_interim m).
Definition set_head (m : msg) (h : hdr) : msg :=
  mkmsg (m_buf m) (m_off m) h (m_chunks m) (m_mode m) (m_reader m) (m_interim m).
Definition set_mode (m : msg) (x : mmode) : msg :=
  mkmsg (m_buf m) (m_off m) (m_head m) (m_chunks m) x (m_reader m) (m_interim m).
Definition set_reader (m : msg) (x : option reader) : msg :=
  mkmsg (m_buf m) (m_off m) (m_head m) (m_chunks m) (m_mode m) x (m_interim m).
Definition set_chunks (m : msg) (x : list (nat * Z)) : msg :=
  mkmsg (m_buf m) (m_off m) (m_head m) x (m_mode m) (m_reader m) (m_interim m).

(** HTTPMessage.feed_line, messaging.py:166-180: the line, what was not used *)
Definition feed_line (m : msg) (text : bytes) : option bytes * bytes * msg :=
  let buf := m_buf m ++ text in
  match find_from LF (m_off m) buf with
  | Some pos =>
      let buf' := firstn (S pos) buf in
      (Some (skipn (m_off m) buf'), skipn (S pos) buf, set_buf m buf' (List.length buf'))
  | None => (None, [], set_buf m buf (m_off m))
  end.
(** HTTPMessage.feed_length, messaging.py:182-189; only called with remaining > 0 *)
Definition feed_length (m : msg) (text : bytes) (remaining : Z) : Z * bytes * msg :=
  let body := firstn (Z.to_nat remaining) text in
  let buf := m_buf m ++ body in
  ((remaining - Z.of_nat (List.length body))%Z, skipn (Z.to_nat remaining) text,
   set_buf m buf (List.length buf)).
(** HTTPMessage.feed_start, messaging.py:191-199 *)
Definition feed_start (m : msg) (text : bytes) : outcome (msg * bytes) :=
  match feed_line m text with
  | (Some line, text', m') =>
      if in_list line NEWLINES then Ret (m', text')
      else bind (set_start_line (m_head m') line)
                (fun h => Ret (set_mode (set_head m' h) Headers, text'))
  | (None, text', m') => Ret (m', text')
  end.
(** HTTPMessage.feed_headers, messaging.py:201-212 *)
Fixpoint feed_headers (fuel : nat) (m : msg) (text : bytes) : outcome (msg * bytes) :=
  match fuel with
  | O => Diverge
  | S fuel' =>
      match text with
      | [] => Ret (m, [])
      | _ =>
          match feed_line m text with
          | (Some line, text', m') =>
              bind (add_header_line (m_head m') line) (fun h =>
                let m2 := set_head m' h in
                if in_list line NEWLINES then Ret (set_mode m2 Body, text')
                else feed_headers fuel' m2 text')
          | (None, text', m') => feed_headers fuel' m' text'
          end
      end
  end.

(** ChunkReader.feed_start, messaging.py:287-313.  [None] is BrokenChunks.  When a
    size line is refused the buffer is cut back to where this call found it. *)
Definition set_creader (m : msg) (c : cmode) (st : bool) (r : Z) : msg :=
  set_reader m (Some (RChunk c st r)).
Definition chunk_start (m : msg) (start : bool) (remaining : Z) (text : bytes)
  : outcome (option (msg * bytes)) :=
  match feed_line m text with
  | (Some line, text', m') =>
      match py_int 16 (match split_once 59 line with Some (a, _) => a | None => line end) with
      | None => if start then Ret None else Raise EValueError
      | Some n =>
          let m2 := set_chunks m' (m_chunks m' ++ [(List.length (m_buf m'), n)]) in
          Ret (Some (set_creader m2 (if Z.eqb n 0 then CTrailer else CChunk) false n, text'))
      end
  | (None, text', m') => Ret (Some (set_creader m' CStart false remaining, text'))
  end.
(** ChunkReader.feed_chunk, messaging.py:315-324 *)
Definition chunk_chunk (m : msg) (start : bool) (remaining : Z) (text : bytes) : msg * bytes :=
  let '(r, text1, m1) := if Z.ltb 0 remaining then feed_length m text remaining
                         else (remaining, text, m) in
  if Z.eqb r 0 then
    let '(line, text2, m2) := feed_line m1 text1 in
    match line with
    | Some _ => (set_creader m2 CStart start r, text2)
    | None => (set_creader m2 CChunk start r, text2)
    end
  else (set_creader m1 CChunk start r, text1).
(** ChunkReader.feed_trailer, messaging.py:326-335 *)
Definition chunk_trailer (m : msg) (start : bool) (remaining : Z) (text : bytes)
  : outcome (msg * bytes) :=
  match feed_line m text with
  | (Some line, text', m') =>
      bind (add_trailer_line (m_head m') line) (fun h =>
        Ret (set_creader (set_head m' h)
               (if in_list line NEWLINES then CEnd else CTrailer) start remaining, text'))
  | (None, text', m') => Ret (m', text')
  end.
Definition empty_text (t : bytes) : bool := match t with [] => true | _ => false end.
(** one pass of the loop in ChunkReader.feed, messaging.py:340-351 *)
Definition chunk_pass (m : msg) (text : bytes) : outcome (option (msg * bytes)) :=
  bind (match m_reader m with
        | Some (RChunk CStart st r) => chunk_start m st r text
        | _ => Ret (Some (m, text))
        end) (fun o =>
  match o with
  | None => Ret None
  | Some (m1, text1) =>
      let '(m2, text2) :=
        match m_reader m1 with
        | Some (RChunk CChunk st r) =>
            if empty_text text1 then (m1, text1) else chunk_chunk m1 st r text1
        | _ => (m1, text1)
        end in
      match m_reader m2 with
      | Some (RChunk CTrailer st r) =>
          if empty_text text2 then Ret (Some (m2, text2))
          else bind (chunk_trailer m2 st r text2) (fun p => Ret (Some p))
      | _ => Ret (Some (m2, text2))
      end
  end).
(** ChunkReader.feed, messaging.py:337-353 *)
Fixpoint chunk_feed (fuel : nat) (m : msg) (text : bytes) : outcome (option (msg * bytes)) :=
  match fuel with
  | O => Diverge
  | S fuel' =>
      match text with
      | [] => Ret (Some (m, []))
      | _ => bind (chunk_pass m text) (fun o =>
               match o with
               | None => Ret None
               | Some (m', text') =>
                   match m_reader m' with
                   | Some (RChunk CEnd _ _) => Ret (Some (set_mode m' End, text'))
                   | _ => chunk_feed fuel' m' text'
                   end
               end)
      end
  end.
(** LengthReader.feed, messaging.py:364-369 *)
Definition length_feed (m : msg) (remaining : Z) (text : bytes) : msg * bytes :=
  let '(r, text1, m1) := if Z.ltb 0 remaining then feed_length m text remaining
                         else (remaining, text, m) in
  let m2 := set_reader m1 (Some (RLength r)) in
  (if Z.leb r 0 then set_mode m2 End else m2, text1).
(** ZipLengthReader.feed, messaging.py:391-399 *)
Definition zip_feed (m : msg) (z : option bytes) (remaining : Z) (text : bytes) : msg * bytes :=
  let '(r, text1, m1) :=
    if Z.ltb 0 remaining
    then feed_length m (match z with Some t => t | None => text end) remaining
    else (remaining, text, m) in
  let m2 := set_reader m1 (Some (RZip z r)) in
  (if Z.leb r 0 then set_mode m2 End else m2, text1).

Section Feed.
  (** GzipFile(fileobj=BytesIO(b)).read(): the data, OSError, EOFError or zlib.error
      (oracle) *)
  Variable gz : bytes -> outcome bytes.

  (** ZipLengthReader.__init__, messaging.py:377-385 *)
  Definition zip_reader (length : Z) (text : bytes) : outcome reader :=
    match gz (py_take length text) with
    | Ret d => Ret (RZip (Some d) (Z.of_nat (List.length d)))
    | Raise EOSError => Ret (RZip None (Z.of_nat (List.length text)))
    | Raise e => Raise e
    | Diverge => Diverge
    end.
  Definition reader_remaining (r : reader) : Z :=
    match r with RChunk _ _ n => n | RLength n => n | RZip _ n => n end.
  (** choosing the body reader, messaging.py:103-124 *)
  Definition begin_body (m : msg) (text : bytes) : outcome msg :=
    let h := m_head m in
    if negb (has_body h) then Ret (set_mode m End)
    else if body_is_chunked h then Ret (set_creader m CStart true 0)
    else match body_length h with
         | Some n =>
             let gzipped := match h_encoding h with
                            | Some e => endswith (B "gzip") e
                            | None => false
                            end in
             bind (if gzipped then zip_reader n text else Ret (RLength n)) (fun r =>
               let n' := reader_remaining r in
               let m1 := set_chunks (set_reader m (Some r)) [(m_off m, n')] in
               Ret (if Z.eqb n' 0 then set_mode m1 End else m1))
         | None => Ret (set_reader (set_chunks m [(m_off m, 0%Z)]) None)
         end.
  (** the close-delimited body, messaging.py:133-138.  ValueError when body_chunks
      does not hold exactly one entry *)
  Definition raw_body (m : msg) (text : bytes) : outcome (msg * bytes) :=
    match m_chunks m with
    | [(o, n)] =>
        let buf := m_buf m ++ text in
        Ret (set_chunks (set_buf m buf (List.length buf)) [(o, (n + Z.of_nat (List.length text))%Z)], [])
    | _ => Raise EValueError
    end.
  (** the 'body' part of feed, messaging.py:126-138 *)
  Definition feed_body (m : msg) (text : bytes) : outcome (msg * bytes) :=
    match m_reader m with
    | None => raw_body m text
    | Some (RChunk _ _ _) =>
        bind (chunk_feed (S (List.length text)) m text) (fun o =>
          match o with
          | Some p => Ret p
          | None =>
              raw_body (set_chunks (set_reader m None) [(List.length (m_buf m), 0%Z)]) text
          end)
    | Some (RLength r) => Ret (length_feed m r text)
    | Some (RZip z r) => Ret (zip_feed m z r text)
    end.
  (** HTTPMessage.feed, messaging.py:95-140 *)
  Definition base_feed (m : msg) (text : bytes) : outcome (msg * bytes) :=
    bind (match m_mode m with
          | Start => if empty_text text then Ret (m, text) else feed_start m text
          | _ => Ret (m, text)
          end) (fun p1 =>
    let '(m1, text1) := p1 in
    bind (match m_mode m1 with
          | Headers =>
              if empty_text text1 then Ret (m1, text1)
              else bind (feed_headers (S (List.length text1)) m1 text1) (fun p =>
                     let '(m', text') := p in
                     match m_mode m' with
                     | Body => bind (begin_body m' text') (fun m2 => Ret (m2, text'))
                     | _ => Ret (m', text')
                     end)
          | _ => Ret (m1, text1)
          end) (fun p2 =>
    let '(m2, text2) := p2 in
    match m_mode m2 with
    | Body => if empty_text text2 then Ret (m2, text2) else feed_body m2 text2
    | _ => Ret (m2, text2)
    end)).
  (** complete, messaging.py:160-164 *)
  Definition complete (m : msg) : bool := match m_mode m with End => true | _ => false end.
  (** ResponseMessage.feed, messaging.py:651-660; RequestMessage inherits feed *)
  Definition feed (m : msg) (text : bytes) : outcome (msg * bytes) :=
    match h_kind (m_head m) with
    | KRequest _ _ _ _ => base_feed m text
    | KResponse _ _ _ _ =>
        bind (base_feed m text) (fun p =>
          let '(m1, text1) := p in
          match h_kind (m_head m1) with
          | KResponse rm _ code _ =>
              if complete m1 && Z.eqb code 100 then
                base_feed (mkmsg (m_buf m1) (m_off m1) (new_response_hdr rm []) [] Start None
                                 (m_interim m1 ++ [m_head m1])) text1
              else Ret (m1, text1)
          | _ => Ret (m1, text1)
          end)
    end.
End Feed.

(** HTTPMessage.close, messaging.py:142-154 *)
Definition close (m : msg) : msg :=
  match m_reader m, m_mode m with
  | None, Body => set_mode m End
  | _, End => m
  | _, _ =>
      let m1 := match rev (m_chunks m) with
                | [] => m
                | (o, n) :: t =>
                    set_chunks m (rev t ++ [(o, Z.min n (Z.of_nat (List.length (m_buf m)) - Z.of_nat o))])
                end in
      set_mode m1 Incomplete
  end.
(** headers_complete, messaging.py:156-158 *)
Definition headers_complete (m : msg) : bool := match m_mode m with End | Body => true | _ => false end.
(** got_continue, messaging.py:644-645 *)
Definition got_continue (m : msg) : bool := match m_interim m with [] => false | _ => true end.
(** get_message, messaging.py:214-216 *)
Definition get_message (m : msg) : bytes := m_buf m.
(** write_body / get_body, messaging.py:253-263 *)
Definition get_body (m : msg) : bytes :=
  concat (map (fun p => slice (m_buf m) (fst p) (Z.of_nat (fst p) + snd p)) (m_chunks m)).
(** feed_predict, messaging.py:78-93, 274-285, 361-362: a line is wanted, or at most
    so many bytes, or everything, or nothing *)
Inductive predict : Type := WantLine | WantAtMost (n : Z) | WantAll.
Definition feed_predict (m : msg) : predict :=
  match m_mode m with
  | Start | Headers => WantLine
  | Body => match m_reader m with
            | None => WantAll
            | Some (RChunk CStart _ _) | Some (RChunk CTrailer _ _) => WantLine
            | Some (RChunk CChunk _ r) => if Z.eqb r 0 then WantLine else WantAtMost r
            | Some (RChunk CEnd _ _) => WantAtMost 0
            | Some (RLength r) | Some (RZip _ r) => WantAtMost r
            end
  | End | Incomplete => WantAtMost 0
  end.

(** ** The decoded message *)
(** STRIP_HEADERS, messaging.py:403-405 *)
Definition STRIP_HEADERS : list bytes :=
  map lower (map B ["Content-Length"; "Transfer-Encoding"; "Content-Encoding"; "TE"; "Expect"; "Trailer"]%string).
(** write_headers, messaging.py:431-437 *)
Definition write_field (nv : bytes * bytes) : bytes := fst nv ++ B ": " ++ snd nv ++ CRLF.
Definition write_headers (h : hdr) (strip_names : list bytes) : bytes :=
  concat (map write_field (filter (fun nv => negb (in_list (lower (fst nv)) strip_names))
                                  (h_headers h ++ h_trailers h))).
(** write_decoded_start, messaging.py:573-574, 623-624: TypeError when a text string
    takes part *)
Definition decoded_start (h : hdr) : outcome bytes :=
  match h_kind h with
  | KRequest m t v text => if text then Raise ETypeError
                           else match m, t, v with
                                | [], [], [] => Raise ETypeError
                                | _, _, _ => Ret (m ++ [SP] ++ t ++ [SP] ++ v ++ CRLF)
                                end
  | KResponse _ v c (Some p) => Ret (v ++ [SP] ++ dec_Z c ++ [SP] ++ p ++ CRLF)
  | KResponse _ _ _ None => Raise ETypeError
  end.
Section Decoded.
  (** zlib.decompress(b) and zlib.decompress(b, 16 + MAX_WBITS): [None] is zlib.error
      (oracles) *)
  Variables unzlib ungzip : bytes -> option bytes.
  (** write_decoded_message / get_decoded_message, messaging.py:218-251, 423-426 *)
  Definition decoded_message (m : msg) : outcome bytes :=
    let h := m_head m in
    bind (decoded_start h) (fun start =>
      let fields := write_headers h (if has_body h then STRIP_HEADERS else []) in
      let length := if has_body h
                    then B "Content-Length: " ++ dec_Z (fold_right Z.add 0%Z (map snd (m_chunks m))) ++ CRLF
                    else [] in
      let body := get_body m in
      let '(extra, body') :=
        match h_encoding h, body with
        | Some ((_ :: _) as e), _ :: _ =>
            match unzlib body with
            | Some d => ([], d)
            | None => match ungzip body with
                      | Some d => ([], d)
                      | None => (B "Content-Encoding: " ++ e ++ CRLF, body)
                      end
            end
        | _, _ => ([], body)
        end in
      Ret (start ++ fields ++ length ++ extra ++ CRLF ++ body')).
End Decoded.
