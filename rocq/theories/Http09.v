(** HTTP/0.9 responses: ResponseMessage.as_http09 and HTTP09Response, messaging.py:662-738;
    HTTPMessage.write_message, messaging.py:225-229. *)
From Verif Require Export Http HttpRequest.
From Coq Require Import String List.
Open Scope list_scope.

(** HTTP09Response.__init__, messaging.py:698-701: the buffer is the response's own
    bytearray, not a copy, so the object is the response together with the mode ('body' or
    'end').  The header class (665-693) holds constants and is not consulted. *)
Record view09 : Type := mk09 { v_resp : msg; v_end : bool }.
Definition as_http09 (m : msg) : view09 := mk09 m false.
(** feed, messaging.py:711-714 *)
Definition feed09 (v : view09) (text : bytes) : view09 * bytes :=
  (mk09 (set_buf (v_resp v) (m_buf (v_resp v) ++ text) (m_off (v_resp v))) (v_end v), []).
(** close, messaging.py:716-718 *)
Definition close09 (v : view09) : view09 := mk09 (v_resp v) true.
(** complete and headers_complete (156-164) on the modes 'body' and 'end' *)
Definition complete09 (v : view09) : bool := v_end v.
Definition headers_complete09 (v : view09) : bool := true.
(** feed_predict, messaging.py:707-709 *)
Definition feed_predict09 (v : view09) : predict := WantAll.
(** get_message, get_decoded_message, get_body, messaging.py:720-738 *)
Definition get_message09 (v : view09) : bytes := m_buf (v_resp v).
Definition get_decoded09 (v : view09) : bytes := m_buf (v_resp v).
Definition get_body09 (v : view09) : bytes := m_buf (v_resp v).

(** feed on an object, with the object's state when the start line is refused
    (messaging.py:191-199: the line has been moved to the buffer, what follows it is in
    a local variable).  [None]: an exception from a later part, whose state is not
    modelled.  The attributes of the header after a refused line are not modelled. *)
Definition attempt (gz : bytes -> outcome bytes) (m : msg) (text : bytes) : option (outcome bytes * msg) :=
  match feed gz m text with
  | Ret (m', t) => Some (Ret t, m')
  | Raise _ => match m_mode m, feed_start m text with
               | Start, Raise e => Some (Raise e, snd (feed_line m text))
               | _, _ => None
               end
  | Diverge => None
  end.
(** write_message, messaging.py:225-229: self.header.write does not exist *)
Definition write_message (m : msg) (buf : bytes) : outcome unit * bytes := (Raise EAttributeError, buf).
(** CONTENT_TYPE of the classes, messaging.py:34, 628, 636, 697.  The last is built with text
    formatting of a byte string. *)
Definition CT_MESSAGE : pyval := PBytes (B "application/http").
Definition CT_REQUEST : pyval := PBytes (B "application/http" ++ B ";msgtype=request").
Definition CT_RESPONSE : pyval := PBytes (B "application/http" ++ B ";msgtype=response").
Definition CT_HTTP09 : pyval := PText (show CT_MESSAGE ++ B ";msgtype=response;version=0.9").
