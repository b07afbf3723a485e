(** Asking a request, its response and the interim responses for their attributes while both are being parsed:
    hanzo/httptools/messaging.py:43-61, 577-604, 645-660.  Conn.v is the two parsers side by side, Attrs.v the
    attributes of one message; here both together, with the properties of HTTPMessage and of ResponseHeader. *)
From Verif Require Export Attrs.
From Coq Require Import String List ZArith.
Open Scope list_scope.

(** The properties of messages; [NCode] is a property of ResponseMessage and an attribute of the headers in its list [interim]. *)
Inductive attr_name : Type := NUrl | NScheme | NMethod | NHost | NPort | NCode.
(** whom is asked: the RequestMessage, the ResponseMessage, or an element of response.interim *)
Inductive whom : Type := TheRequest | TheResponse | AnInterim (j : nat).
Inductive event : Type := Call (s : side) (a : act) | Ask (w : whom) (n : attr_name).
Inductive reply : Type := Done (o : outcome bytes) | Says (x : outcome pyval).

Record both : Type := mkboth { b_req : msg; b_req_attrs : attrs; b_resp : msg; b_resp_attrs : attrs }.
(** RequestMessage(ignore_headers), ResponseMessage(request, ignore_headers), messaging.py:627-642 *)
Definition new_both (ign1 ign2 : list bytes) : both :=
  let c := new_conn ign1 ign2 in mkboth (c_req c) request_attrs (c_resp c) response_attrs.

(** the attributes of a RequestHeader, and RequestHeader.url, messaging.py:515-531, as HTTPMessage hands them out
    (messaging.py:43-61); it has no attribute code *)
Definition ask_request (a : attrs) (n : attr_name) : outcome pyval :=
  match a with
  | ARequest method _ _ host port scheme =>
      match n with
      | NUrl => match a_url a with Some u => Ret (PText u) | None => Raise EAttributeError end
      | NScheme => Ret scheme | NMethod => Ret method | NHost => Ret host | NPort => Ret port
      | NCode => Raise EAttributeError
      end
  | AResponse _ _ _ => Raise EAttributeError
  end.
(** ResponseHeader: everything but the code is asked of the request's header, messaging.py:586-604; ResponseMessage.code,
    messaging.py:647-649 *)
Definition ask_response (request : attrs) (code : outcome pyval) (n : attr_name) : outcome pyval :=
  match n with NCode => code | _ => ask_request request n end.
Definition ask (b : both) (w : whom) (n : attr_name) : outcome pyval :=
  match w with
  | TheRequest => ask_request (b_req_attrs b) n
  | TheResponse => ask_response (b_req_attrs b) (match b_resp_attrs b with AResponse _ code _ => Ret code | ARequest _ _ _ _ _ _ => Raise EAttributeError end) n
  | AnInterim j =>
      match nth_error (m_interim (b_resp b)) j with
      | None => Raise EIndexError
      | Some h => ask_response (b_req_attrs b) (match h_kind h with KResponse _ _ code _ => Ret (PInt code) | KRequest _ _ _ _ => Raise EAttributeError end) n
      end
  end.
Section Gz.
  Variable gz : bytes -> outcome bytes.
  (** feed and close, messaging.py:95-154, 651-660; see [conn_does] in Conn.v for the method *)
  Definition b_call (b : both) (s : side) (a : act) : outcome bytes * both :=
    match s with
    | Req => let '(o, m, at') := a_does gz (b_req b) (b_req_attrs b) a in (o, mkboth m at' (b_resp b) (b_resp_attrs b))
    | Resp => let '(o, m, at') := a_does gz (msg_method (method_of (b_req b)) (b_resp b)) (b_resp_attrs b) a in (o, mkboth (b_req b) (b_req_attrs b) m at')
    end.
  (** events one after the other, exceptions or not (a call that does not end is the last one) *)
  Fixpoint b_run (b : both) (events : list event) : list reply * both :=
    match events with
    | [] => ([], b)
    | Ask w n :: rest => let '(log, b') := b_run b rest in (Says (ask b w n) :: log, b')
    | Call s a :: rest =>
        match b_call b s a with
        | (Diverge, b') => ([Done Diverge], b')
        | (o, b') => let '(log, b'') := b_run b' rest in (Done o :: log, b'')
        end
    end.
End Gz.
