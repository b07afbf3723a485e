(** A request and its response, parsed side by side: hanzo/httptools/messaging.py:38-61,
    577-604, 627-660.  ResponseMessage(request) keeps a reference to the header of the
    request, so [method] is looked up there whenever it is needed: the two parsers are not
    independent.  The model of a response parser (Http.v) holds the method itself; here
    that copy is renewed from the request before every call.

    Simplification (as in HttpRaise.v): after a refused CONNECT line the request's
    attribute method is already set; nothing but HEAD is ever looked for. *)
From Verif Require Export HttpRaise.
From Coq Require Import String List.
Open Scope list_scope.

(** self.request.method, messaging.py:586-588 *)
Definition with_method (rm : bytes) (h : hdr) : hdr :=
  match h_kind h with
  | KResponse _ v c p => set_kind h (KResponse rm v c p)
  | _ => h
  end.
(** the current header and the interim ones all refer to the same request header, messaging.py:651-656 *)
Definition msg_method (rm : bytes) (m : msg) : msg :=
  mkmsg (m_buf m) (m_off m) (with_method rm (m_head m)) (m_chunks m) (m_mode m) (m_reader m) (map (with_method rm) (m_interim m)).
(** RequestHeader.method, messaging.py:518, 545; a text string before a start line was read: nothing
    compares equal to it *)
Definition method_of (req : msg) : bytes := match h_kind (m_head req) with KRequest m _ _ _ => m | _ => [] end.

Record conn : Type := mkconn { c_req : msg; c_resp : msg }.
(** RequestMessage(ignore_headers) and ResponseMessage(request, ignore_headers), messaging.py:627-642 *)
Definition new_conn (ign1 ign2 : list bytes) : conn :=
  let req := new_request ign1 in mkconn req (new_response (method_of req) ign2).
(** calls of methods that change a parser *)
Inductive act : Type := Feed (text : bytes) | Close.
Inductive side : Type := Req | Resp.
Section Gz.
  Variable gz : bytes -> outcome bytes.
  (** feed and close, messaging.py:95-154, 651-660 *)
  Definition does (m : msg) (a : act) : outcome bytes * msg :=
    match a with
    | Feed text => x_feed gz m text
    | Close => (Ret [], close m)
    end.
  (** one parser on its own (a call that does not end is the last one) *)
  Fixpoint alone (m : msg) (acts : list act) : list (outcome bytes) * msg :=
    match acts with
    | [] => ([], m)
    | a :: rest =>
        match does m a with
        | (Diverge, m') => ([Diverge], m')
        | (o, m') => let '(os, m'') := alone m' rest in (o :: os, m'')
        end
    end.
  (** a call on one of the two *)
  Definition conn_does (c : conn) (call : side * act) : outcome bytes * conn :=
    match call with
    | (Req, a) => let '(o, m) := does (c_req c) a in (o, mkconn m (c_resp c))
    | (Resp, a) => let '(o, m) := does (msg_method (method_of (c_req c)) (c_resp c)) a in (o, mkconn (c_req c) m)
    end.
  Fixpoint conn_run (c : conn) (calls : list (side * act)) : list (side * outcome bytes) * conn :=
    match calls with
    | [] => ([], c)
    | call :: rest =>
        match conn_does c call with
        | (Diverge, c') => ([(fst call, Diverge)], c')
        | (o, c') => let '(os, c'') := conn_run c' rest in ((fst call, o) :: os, c'')
        end
    end.
End Gz.
