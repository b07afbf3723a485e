(** Names and classes of methods and status codes: hanzo/httptools/semantics.py. *)
From Verif Require Export Http.
From Coq Require Import String List ZArith.
Open Scope list_scope.

(** ** class Codes, semantics.py:32-104 *)
(** what can be asked "in" a range: an integer, or something that cannot be compared with one (None, text, bytes) *)
Inductive asked : Type := Number (c : Z) | NotNumber.
Inductive range_name : Type := Informational | Successful | Redirection | ClientError | ServerError | NoBody.
(** the functions under @range_collection, semantics.py:22-29, 37-39, 49-51, 62-64, 87-89, 98-104 *)
Definition range_holds (r : range_name) (c : Z) : bool :=
  (match r with
   | Informational => (100 <=? c) && (c <? 200)
   | Successful => (200 <=? c) && (c <? 300)
   | Redirection => (300 <=? c) && (c <? 400)
   | ClientError => (400 <=? c) && (c <? 500)
   | ServerError => (500 <=? c) && (c <? 600)
   | NoBody => code_no_body c
   end)%Z.
(** x in Codes.r: Range.__contains__; comparing a number with what is none raises TypeError (Python 3) *)
Definition in_codes (r : range_name) (x : asked) : outcome bool :=
  match x with Number c => Ret (range_holds r c) | NotNumber => Raise ETypeError end.
(** the constants, in the order of the source, each block under the range it stands with *)
Definition named (r : range_name) : list (string * Z) :=
  match r with
  | Informational => [("Continue", 100); ("switching_protocols", 101)]
  | Successful => [("ok", 200); ("created", 201); ("accepted", 202); ("non_authorative_content", 203); ("no_content", 204);
                   ("reset_content", 205); ("partial_content", 206)]
  | Redirection => [("moved_permanently", 301); ("found", 302); ("see_other", 303); ("not_modified", 304); ("use_proxy", 305);
                    ("obsolete_switch_proxy", 306); ("temporary_redirect", 307)]
  | ClientError => [("bad_request", 400); ("unauthorized", 401); ("payment_required", 402); ("forbidden", 403); ("not_found", 404);
                    ("method_not_allowed", 405); ("not_acceptable", 406); ("proxy_authentication_required", 407);
                    ("request_timeout", 408); ("conflict", 409); ("gone", 410); ("length_required", 411); ("precondition_failed", 412);
                    ("request_representation_too_large", 413); ("uri_too_long", 414); ("unsupported_media_type", 415);
                    ("requested_range_not_satisfiable", 415); ("expectation_failed", 417); ("upgrade_required", 426)]
  | ServerError => [("internal_server_error", 501); ("not_implemented", 501); ("bad_gateway", 502); ("service_unavailable", 503);
                    ("gateway_timeout", 504); ("http_version_not_supported", 505)]
  | NoBody => []
  end%string%Z.
Definition all_named : list (string * Z) := named Informational ++ named Successful ++ named Redirection ++ named ClientError ++ named ServerError.

(** ** class Methods, semantics.py:6-19 *)
Inductive method_set : Type := Safe | Idempotent | BodyLess | Cacheable.
Definition members (s : method_set) : list bytes :=
  match s with
  | Safe => [B "GET"; B "HEAD"; B "OPTIONS"; B "TRACE"]
  | Idempotent => [B "PUT"; B "DELETE"]
  | BodyLess => [B "HEAD"]
  | Cacheable => [B "GET"]
  end.
(** m in Methods.s: a tuple of bytes objects; a text equals none of them *)
Definition in_methods (s : method_set) (m : bytes) : bool := in_list m (members s).
