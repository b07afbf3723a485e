(** The HTTP parser once more, with the state it is left in when a call raises:
    hanzo/httptools/messaging.py.  [Http.v] gives the new state only on success; here
    every function gives it always.  That both agree is proved in [HttpRaiseFacts.v].

    Simplification: the attributes method, target, version, code and phrase after a
    refused start line keep their old values (the code assigns some of them first, even a
    byte string to code; the next accepted start line sets all of them again, and nothing
    reads them before that except a caller).  Attrs.v does without this. *)
From Verif Require Export Http.
From Coq Require Import String List.
Open Scope list_scope.

(** the loop at the blank line, messaging.py:464-492: what has been noted when int() raises *)
Fixpoint note_until (h : hdr) (l : list (bytes * bytes)) : hdr :=
  match l with
  | [] => h
  | nv :: t => match note_header h nv with Ret h' => note_until h' t | _ => h end
  end.
(** HTTPHeader.add_header_line, messaging.py:456-498.  The header list is changed only by
    the last step of a branch, so a refused field or continuation line changes nothing;
    [self.headers.pop()] raises on an empty list. *)
Definition x_header_line (h : hdr) (line : bytes) : outcome unit * hdr :=
  match add_header_line h line with
  | Ret h' => (Ret tt, h')
  | Raise e => (Raise e, if is_folded line then h else if in_list line NEWLINES then note_until h (h_headers h) else h)
  | Diverge => (Diverge, h)
  end.
(** HTTPHeader.add_trailer_line, messaging.py:439-451: likewise *)
Definition x_trailer_line (h : hdr) (line : bytes) : outcome unit * hdr :=
  match add_trailer_line h line with
  | Ret h' => (Ret tt, h')
  | Raise e => (Raise e, h)
  | Diverge => (Diverge, h)
  end.
(** HTTPMessage.feed_start, messaging.py:191-199 *)
Definition x_start (m : msg) (text : bytes) : outcome bytes * msg :=
  match feed_line m text with
  | (Some line, text', m') =>
      if in_list line NEWLINES then (Ret text', m')
      else match set_start_line (m_head m') line with
           | Ret h => (Ret text', set_mode (set_head m' h) Headers)
           | Raise e => (Raise e, m')
           | Diverge => (Diverge, m')
           end
  | (None, text', m') => (Ret text', m')
  end.
(** HTTPMessage.feed_headers, messaging.py:201-212 *)
Fixpoint x_headers (fuel : nat) (m : msg) (text : bytes) : outcome bytes * msg :=
  match fuel with
  | O => (Diverge, m)
  | S fuel' =>
      match text with
      | [] => (Ret [], m)
      | _ =>
          match feed_line m text with
          | (Some line, text', m') =>
              match x_header_line (m_head m') line with
              | (Ret _, h) => if in_list line NEWLINES then (Ret text', set_mode (set_head m' h) Body)
                              else x_headers fuel' (set_head m' h) text'
              | (Raise e, h) => (Raise e, set_head m' h)
              | (Diverge, h) => (Diverge, set_head m' h)
              end
          | (None, text', m') => x_headers fuel' m' text'
          end
      end
  end.
(** ChunkReader.feed_start, messaging.py:287-313.  [Ret None] is BrokenChunks: the buffer
    is cut back, so the state is the one before the call. *)
Definition x_chunk_start (m : msg) (start : bool) (remaining : Z) (text : bytes) : outcome (option bytes) * msg :=
  match feed_line m text with
  | (Some line, text', m') =>
      match py_int 16 (match split_once 59 line with Some (a, _) => a | None => line end) with
      | None => if start then (Ret None, set_buf m' (m_buf m) (List.length (m_buf m))) else (Raise EValueError, m')
      | Some n =>
          let m2 := set_chunks m' (m_chunks m' ++ [(List.length (m_buf m'), n)]) in
          (Ret (Some text'), set_creader m2 (if Z.eqb n 0 then CTrailer else CChunk) false n)
      end
  | (None, text', m') => (Ret (Some text'), set_creader m' CStart false remaining)
  end.
(** ChunkReader.feed_trailer, messaging.py:326-335 *)
Definition x_trailer (m : msg) (start : bool) (remaining : Z) (text : bytes) : outcome bytes * msg :=
  match feed_line m text with
  | (Some line, text', m') =>
      match x_trailer_line (m_head m') line with
      | (Ret _, h) => (Ret text', set_creader (set_head m' h) (if in_list line NEWLINES then CEnd else CTrailer) start remaining)
      | (Raise e, h) => (Raise e, set_head m' h)
      | (Diverge, h) => (Diverge, set_head m' h)
      end
  | (None, text', m') => (Ret text', m')
  end.
(** one pass of the loop in ChunkReader.feed, messaging.py:340-351 *)
Definition x_pass (m : msg) (text : bytes) : outcome (option bytes) * msg :=
  match (match m_reader m with
         | Some (RChunk CStart st r) => x_chunk_start m st r text
         | _ => (Ret (Some text), m)
         end) with
  | (Ret (Some text1), m1) =>
      let '(m2, text2) :=
        match m_reader m1 with
        | Some (RChunk CChunk st r) => if empty_text text1 then (m1, text1) else chunk_chunk m1 st r text1
        | _ => (m1, text1)
        end in
      match m_reader m2 with
      | Some (RChunk CTrailer st r) =>
          if empty_text text2 then (Ret (Some text2), m2)
          else match x_trailer m2 st r text2 with
               | (Ret t, m3) => (Ret (Some t), m3)
               | (Raise e, m3) => (Raise e, m3)
               | (Diverge, m3) => (Diverge, m3)
               end
      | _ => (Ret (Some text2), m2)
      end
  | (Ret None, m1) => (Ret None, m1)
  | (Raise e, m1) => (Raise e, m1)
  | (Diverge, m1) => (Diverge, m1)
  end.
(** ChunkReader.feed, messaging.py:337-353 *)
Fixpoint x_chunks (fuel : nat) (m : msg) (text : bytes) : outcome (option bytes) * msg :=
  match fuel with
  | O => (Diverge, m)
  | S fuel' =>
      match text with
      | [] => (Ret (Some []), m)
      | _ => match x_pass m text with
             | (Ret (Some text'), m') =>
                 match m_reader m' with
                 | Some (RChunk CEnd _ _) => (Ret (Some text'), set_mode m' End)
                 | _ => x_chunks fuel' m' text'
                 end
             | (Ret None, m') => (Ret None, m')
             | (Raise e, m') => (Raise e, m')
             | (Diverge, m') => (Diverge, m')
             end
      end
  end.
(** the close-delimited body, messaging.py:133-138: the unpacking raises before anything
    is changed *)
Definition x_raw (m : msg) (text : bytes) : outcome bytes * msg :=
  match m_chunks m with
  | [(o, n)] =>
      let buf := m_buf m ++ text in
      (Ret [], set_chunks (set_buf m buf (List.length buf)) [(o, (n + Z.of_nat (List.length text))%Z)])
  | _ => (Raise EValueError, m)
  end.
(** the 'body' part of feed, messaging.py:126-138 *)
Definition x_body (m : msg) (text : bytes) : outcome bytes * msg :=
  match m_reader m with
  | None => x_raw m text
  | Some (RChunk _ _ _) =>
      match x_chunks (S (List.length text)) m text with
      | (Ret (Some t), m') => (Ret t, m')
      | (Ret None, m') => x_raw (set_chunks (set_reader m' None) [(m_off m', 0%Z)]) text
      | (Raise e, m') => (Raise e, m')
      | (Diverge, m') => (Diverge, m')
      end
  | Some (RLength r) => let '(m', t) := length_feed m r text in (Ret t, m')
  | Some (RZip z r) => let '(m', t) := zip_feed m z r text in (Ret t, m')
  end.

Section XFeed.
  Variable gz : bytes -> outcome bytes.
  (** choosing the body reader, messaging.py:103-124: when ZipLengthReader raises nothing
      has been assigned yet *)
  Definition x_begin (m : msg) (text : bytes) : outcome unit * msg :=
    match begin_body gz m text with
    | Ret m' => (Ret tt, m')
    | Raise e => (Raise e, m)
    | Diverge => (Diverge, m)
    end.
  (** HTTPMessage.feed, messaging.py:95-140 *)
  Definition x_base (m : msg) (text : bytes) : outcome bytes * msg :=
    match (match m_mode m with
           | Start => if empty_text text then (Ret text, m) else x_start m text
           | _ => (Ret text, m)
           end) with
    | (Ret text1, m1) =>
        match (match m_mode m1 with
               | Headers =>
                   if empty_text text1 then (Ret text1, m1)
                   else match x_headers (S (List.length text1)) m1 text1 with
                        | (Ret text', m') =>
                            match m_mode m' with
                            | Body => match x_begin m' text' with
                                      | (Ret _, m2) => (Ret text', m2)
                                      | (Raise e, m2) => (Raise e, m2)
                                      | (Diverge, m2) => (Diverge, m2)
                                      end
                            | _ => (Ret text', m')
                            end
                        | (Raise e, m') => (Raise e, m')
                        | (Diverge, m') => (Diverge, m')
                        end
               | _ => (Ret text1, m1)
               end) with
        | (Ret text2, m2) =>
            match m_mode m2 with
            | Body => if empty_text text2 then (Ret text2, m2) else x_body m2 text2
            | _ => (Ret text2, m2)
            end
        | (Raise e, m2) => (Raise e, m2)
        | (Diverge, m2) => (Diverge, m2)
        end
    | (Raise e, m1) => (Raise e, m1)
    | (Diverge, m1) => (Diverge, m1)
    end.
  (** ResponseMessage.feed, messaging.py:651-660; RequestMessage inherits feed *)
  Definition x_feed (m : msg) (text : bytes) : outcome bytes * msg :=
    match h_kind (m_head m) with
    | KRequest _ _ _ _ => x_base m text
    | KResponse _ _ _ _ =>
        match x_base m text with
        | (Ret text1, m1) =>
            match h_kind (m_head m1) with
            | KResponse rm _ code _ =>
                if complete m1 && Z.eqb code 100 then
                  x_base (mkmsg (m_buf m1) (m_off m1) (new_response_hdr rm []) [] Start None
                                (m_interim m1 ++ [m_head m1])) text1
                else (Ret text1, m1)
            | _ => (Ret text1, m1)
            end
        | x => x
        end
    end.
End XFeed.
