(** What a caller sees in the attributes of a message - method, target_uri, version, host, port,
    scheme, code, phrase - at any time, also after calls that raised: hanzo/httptools/messaging.py:38-61,
    513-624, 651-660.  The parser is that of HttpRaise.v; the attributes are carried along.  (That the parser
    is not changed by this is proved in AttrsFacts.v.)  This does away with the simplification of HttpRaise.v:
    set_start_line assigns some attributes before it raises.

    Not modelled: int() refusing numbers of more than 4300 digits (a limit of recent Python versions). *)
From Verif Require Export Conn HttpRequest.
From Coq Require Import String List ZArith.
Open Scope list_scope.

(** the attributes of RequestHeader and of ResponseHeader *)
Inductive attrs : Type :=
| ARequest (method target version host port scheme : pyval)
| AResponse (version code phrase : pyval).

(** RequestHeader.__init__, messaging.py:515-523 *)
Definition request_attrs : attrs := ARequest (PText []) (PText []) (PText []) (PText []) (PInt 80) (PText (B "http")).
(** ResponseHeader.__init__, messaging.py:579-584 *)
Definition response_attrs : attrs := AResponse (PBytes (B "HTTP/1.1")) (PInt 0) (PText (B "Empty Response")).

(** set_start_line, messaging.py:544-568 and 606-613: the attributes afterwards, whether it raises or not.
    ([set_start_line] of Http.v says when it raises.) *)
Definition a_start_line (a : attrs) (line : bytes) : attrs :=
  match a with
  | ARequest _ _ _ host port scheme =>
      match split_max 2 SP (rstrip line) with
      | [m; t; v] =>
          if bytes_eqb (upper m) (B "CONNECT") then
            match split_all COLON t with
            | [h; p] => ARequest (PBytes m) (PBytes t) (PBytes v) (PBytes h) (PBytes p) scheme
            | _ => ARequest (PBytes m) (PBytes t) (PBytes v) host port scheme
            end
          else
            match re_match url_rx t with
            | Some g =>
                let target := match group 1 g with [] => PText (B "/") | path => PBytes path end in
                match group 4 g with
                | [] => ARequest (PBytes m) target (PBytes v) (PBytes (group 3 g)) (PInt 80) (PBytes (group 2 g))
                | p => match py_int 10 p with
                       | Some z => ARequest (PBytes m) target (PBytes v) (PBytes (group 3 g)) (PInt z) (PBytes (group 2 g))
                       | None => ARequest (PBytes m) (PBytes (group 1 g)) (PBytes v) (PBytes (group 3 g)) port scheme
                       end
                end
            | None => ARequest (PBytes m) (PBytes t) (PBytes v) host port scheme
            end
      | _ => a
      end
  | AResponse _ _ _ =>
      match split_max 2 SP (rstrip line) with
      | v :: c :: rest =>
          AResponse (PBytes v) (match py_int 10 c with Some z => PInt z | None => PBytes c end)
                    (PBytes (match rest with p :: _ => p | [] => [] end))
      | _ => a
      end
  end.
(** the host part of RequestHeader.add_header, messaging.py:534-540; ResponseHeader has none *)
Definition a_add_header (a : attrs) (nv : bytes * bytes) : attrs :=
  match a with
  | ARequest m t v host port scheme =>
      if bytes_eqb (lower (fst nv)) (B "host") then
        match split_once COLON (snd nv) with
        | Some (h, p) => ARequest m t v (PBytes h) (PBytes p) scheme
        | None => ARequest m t v (PBytes (snd nv)) port scheme
        end
      else a
  | AResponse _ _ _ => a
  end.
(** HTTPHeader.add_header_line, messaging.py:456-498; [h] is the header before *)
Definition a_header_line (a : attrs) (h : hdr) (line : bytes) : attrs :=
  if is_folded line then
    match rev (h_headers h) with
    | [] => a
    | (k, v) :: _ => a_add_header a (k, v ++ [SP] ++ strip line)
    end
  else if in_list line NEWLINES then a
  else match split_field line with
       | Ret nv => a_add_header a nv
       | _ => a
       end.

(** HTTPMessage.feed_start, messaging.py:191-199 *)
Definition a_start (m : msg) (a : attrs) (text : bytes) : outcome bytes * msg * attrs :=
  match feed_line m text with
  | (Some line, text', m') =>
      if in_list line NEWLINES then (Ret text', m', a)
      else match set_start_line (m_head m') line with
           | Ret h => (Ret text', set_mode (set_head m' h) Headers, a_start_line a line)
           | Raise e => (Raise e, m', a_start_line a line)
           | Diverge => (Diverge, m', a)
           end
  | (None, text', m') => (Ret text', m', a)
  end.
(** HTTPMessage.feed_headers, messaging.py:201-212 *)
Fixpoint a_headers (fuel : nat) (m : msg) (a : attrs) (text : bytes) : outcome bytes * msg * attrs :=
  match fuel with
  | O => (Diverge, m, a)
  | S fuel' =>
      match text with
      | [] => (Ret [], m, a)
      | _ =>
          match feed_line m text with
          | (Some line, text', m') =>
              let a' := a_header_line a (m_head m') line in
              match x_header_line (m_head m') line with
              | (Ret _, h) => if in_list line NEWLINES then (Ret text', set_mode (set_head m' h) Body, a')
                              else a_headers fuel' (set_head m' h) a' text'
              | (Raise e, h) => (Raise e, set_head m' h, a')
              | (Diverge, h) => (Diverge, set_head m' h, a')
              end
          | (None, text', m') => a_headers fuel' m' a text'
          end
      end
  end.

Section AFeed.
  Variable gz : bytes -> outcome bytes.
  (** HTTPMessage.feed, messaging.py:95-140: once the head is read, no attribute is assigned *)
  Definition a_base (m : msg) (a : attrs) (text : bytes) : outcome bytes * msg * attrs :=
    match (match m_mode m with
           | Start => if empty_text text then (Ret text, m, a) else a_start m a text
           | _ => (Ret text, m, a)
           end) with
    | (Ret text1, m1, a1) =>
        match (match m_mode m1 with
               | Headers =>
                   if empty_text text1 then (Ret text1, m1, a1)
                   else match a_headers (S (List.length text1)) m1 a1 text1 with
                        | (Ret text', m', a') =>
                            match m_mode m' with
                            | Body => match x_begin gz m' text' with
                                      | (Ret _, m2) => (Ret text', m2, a')
                                      | (Raise e, m2) => (Raise e, m2, a')
                                      | (Diverge, m2) => (Diverge, m2, a')
                                      end
                            | _ => (Ret text', m', a')
                            end
                        | x => x
                        end
               | _ => (Ret text1, m1, a1)
               end) with
        | (Ret text2, m2, a2) =>
            match m_mode m2 with
            | Body => if empty_text text2 then (Ret text2, m2, a2) else let '(o, m3) := x_body m2 text2 in (o, m3, a2)
            | _ => (Ret text2, m2, a2)
            end
        | x => x
        end
    | x => x
    end.
  (** ResponseMessage.feed, messaging.py:651-660: after a 100 Continue there is a new ResponseHeader *)
  Definition a_feed (m : msg) (a : attrs) (text : bytes) : outcome bytes * msg * attrs :=
    match h_kind (m_head m) with
    | KRequest _ _ _ _ => a_base m a text
    | KResponse _ _ _ _ =>
        match a_base m a text with
        | (Ret text1, m1, a1) =>
            match h_kind (m_head m1) with
            | KResponse rm _ code _ =>
                if complete m1 && Z.eqb code 100 then
                  a_base (mkmsg (m_buf m1) (m_off m1) (new_response_hdr rm []) [] Start None
                                (m_interim m1 ++ [m_head m1])) response_attrs text1
                else (Ret text1, m1, a1)
            | _ => (Ret text1, m1, a1)
            end
        | x => x
        end
    end.
  (** feed and close, one call after the other, exceptions or not (a call that does not end is the last one) *)
  Definition a_does (m : msg) (a : attrs) (c : act) : outcome bytes * msg * attrs :=
    match c with
    | Feed text => a_feed m a text
    | Close => (Ret [], close m, a)
    end.
  Fixpoint a_run (m : msg) (a : attrs) (acts : list act) : list (outcome bytes) * msg * attrs :=
    match acts with
    | [] => ([], m, a)
    | c :: rest =>
        match a_does m a c with
        | (Diverge, m', a') => ([Diverge], m', a')
        | (o, m', a') => let '(os, m'', a'') := a_run m' a' rest in (o :: os, m'', a'')
        end
    end.
End AFeed.

(** RequestMessage and ResponseMessage as they are made, messaging.py:627-642 *)
Definition attrs_for (kind : option bytes) : attrs :=
  match kind with None => request_attrs | Some _ => response_attrs end.
(** message.url of a request, messaging.py:43-45, 525-531 *)
Definition a_url (a : attrs) : option bytes :=
  match a with
  | ARequest _ t _ host port scheme =>
      Some (show scheme ++ B "://" ++ show host ++
            (if (is_text (B "http") scheme || is_text (B "https") scheme) && is_int 80 port then [] else B ":" ++ show port) ++ show t)
  | AResponse _ _ _ => None
  end.
