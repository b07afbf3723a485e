(** Concrete cases for C18, C21, C22, C23, C28, C29, C41 and C59. *)
From Verif Require Import PropsParse PropsRecord PropsArc PropsPlace.
From Verif Require Http HttpBody.
From Coq Require Import String List Lia.
Open Scope list_scope.

Definition more_text : bytes := B "WARC/1.0" ++ CRLF ++ B "WARC-Type: resource" ++ CRLF ++ B "Content-Length: 3" ++ CRLF ++ CRLF ++ B "abc" ++ CRLF ++ CRLF.
Example C18_case :
  let r := new_warc (B "WARC/1.0") [(B "WARC-Type", B "resource")] (Some (None, Some (B "abc"))) [] CF_none in
  let st := new_stream SPlain (mkfile [] 0 true) PWarc in
  snd (write_to None CRLF r st) = more_text /\ let '(_, r', st', _) := write_to None CRLF r st in snd (write_to None CRLF r' st') = more_text.
Proof. split; vm_compute; reflexivity. Qed.
(** a record is read from a compressed file, so the hypothesis of C21 holds and its offset is None *)
Example C21_case : exists r st', read_record (new_stream SGzipRecord (mkfile more_text 0 true) PWarc) true = (Ret (None, Some r, []), st') /\ r_headers r <> [].
Proof. do 2 eexists. split; [vm_compute; reflexivity|discriminate]. Qed.
Example C22_case :
  fst (read_record (new_stream SGzipFile (mkfile more_text 0 true) PWarc) true) = Raise ENameError /\
  (exists r, fst (read_record (new_stream SPlain (mkfile more_text 0 true) PWarc) true) = Ret (Some 0, Some r, [])) /\
  fst (read_record (new_stream SGzipFile (mkfile (B "WARC/9.9" ++ CRLF) 0 true) PWarc) true) = Raise ETypeError.
Proof. split; [vm_compute; reflexivity|]. split; [eexists; vm_compute; reflexivity|vm_compute; reflexivity]. Qed.
(** all the lines of C13's sample with the line ends given: two end in LF alone, and the blank line too *)
Example C23_case :
  let text := (B "WARC/1.0" ++ eol false) ++ concat (map entry_text entry_sample) ++ eol true ++ B "body" in
  ready (new_stream SPlain (mkfile text 0 true) PWarc) 0 text /\
  (exists r, fst (read_record (new_stream SPlain (mkfile text 0 true) PWarc) true) = Ret (Some 0, Some r, []) /\
     r_errors r = line_complaints false entry_sample /\ List.length (r_errors r) = 3 /\ r_headers r = map entry_header entry_sample).
Proof. split; [repeat split|]. eexists. split; [vm_compute; reflexivity|]. repeat split; vm_compute; reflexivity. Qed.
Definition arc_here (text : bytes) : stream := new_stream SPlain (mkfile text 0 true) (PArc (mkarc (B "1") (map B ["URL"; "IP-address"; "Archive-length"]%string))).
Example C28_case :
  (exists r st', read_record (arc_here ([LF; SP; LF] ++ B "http://a b/c d 1.2.3.4 3" ++ [LF] ++ B "xyz")) true = (Ret (Some 1, Some r, []), st') /\
     r_headers r = [(B "URL", B "http://a b/c d"); (B "IP-address", B "1.2.3.4"); (B "Archive-length", B "3")]) /\
  S (spaces (rstrip_crlf (B "http://a 3"))) < 3 /\
  fst (read_record (arc_here (B "http://a 3")) true) = Raise ETypeError /\ ends_line [] [].
Proof. split; [do 2 eexists; split; vm_compute; reflexivity|]. split; [vm_compute; lia|]. split; [vm_compute; reflexivity|right; split; reflexivity]. Qed.
Example C29_case :
  fst (read_record (new_stream SPlain (mkfile ([LF] ++ B "http://a 1.2.3.4 3" ++ [LF]) 0 true) (PArc arc_init)) true) = Raise E_filedesc /\
  fst (read_record (new_stream SPlain (mkfile (B "http://a 1.2.3.4 3") 0 true) (PArc arc_init)) true) = Raise E_filedesc /\
  fst (read_record (new_stream SPlain (mkfile [SP; LF; CR; TAB] 0 true) (PArc arc_init)) true) = Ret (Some 0, None, []).
Proof. repeat split; vm_compute; reflexivity. Qed.
(** the three kinds of closing: complete before, body up to the end of input, body of known length *)
Example C41_case :
  let fed text := match Http.feed (fun _ => Raise EOSError) (HttpBody.parser_for (Some (B "GET")) []) text with Ret (m, _) => Some m | _ => None end in
  let ended text := match fed text with Some m => (Http.complete m, Http.complete (Http.close m), Http.get_body (Http.close m)) | None => (false, false, []) end in
  ended (B "HTTP/1.1 204 No" ++ CRLF ++ CRLF) = (true, true, []) /\
  ended (B "HTTP/1.1 200 OK" ++ CRLF ++ CRLF ++ B "abc") = (false, true, B "abc") /\
  ended (B "HTTP/1.1 200 OK" ++ CRLF ++ B "Content-Length: 5" ++ CRLF ++ CRLF ++ B "abc") = (false, false, B "abc").
Proof. repeat split; vm_compute; reflexivity. Qed.
Example C59_case :
  let uses := [[OpRead (Some 1%Z)]; []] in
  let preface := B "anything" ++ [LF; 0%N] in
  exists got, fst (session true uses (new_stream SPlain (mkfile (preface ++ more_text) 10 true) PWarc)) = Ret got /\
  map (fun p => fst (fst (fst p))) got = [Some 10; Some (List.length (preface ++ more_text))] /\ List.length preface = 10.
Proof. eexists. split; [vm_compute; reflexivity|]. split; vm_compute; reflexivity. Qed.
