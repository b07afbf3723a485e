(** record.dump and the tool warcdump: hanzo/warctools/record.py:9, 143-165 and
    hanzo/warcdump.py.

    What is printed is text: a list of code points.  Bytes decoded as latin1 are the
    code points with the same numbers.  How the terminal encodes the text, standard
    input and option parsing are not modelled. *)
From Verif Require Export Tools.
From Verif Require HttpRequest.
From Coq Require Import String List.
Open Scope list_scope.

(** print(line) *)
Definition print (out : bytes) (line : bytes) : bytes := out ++ line ++ [LF].

(** '%00X' % n for a byte: upper case, not padded (record.py:156) *)
Definition hex_upper (n : N) : N := if N.ltb n 10 then (48 + n)%N else (55 + n)%N.
Definition hex_byte (c : N) : bytes :=
  if N.ltb c 16 then [hex_upper c] else [hex_upper (N.div c 16); hex_upper (N.modulo c 16)].
(** the class [^\w\t \|\\\/], record.py:9 *)
Definition stripped (c : N) : bool :=
  negb (is_word c || N.eqb c 9 || N.eqb c 32 || N.eqb c 124 || N.eqb c 92 || N.eqb c 47).
(** strip.sub(lambda x: '\\x%00X' % ord(x.group()), s), record.py:156 *)
Definition strip_sub (s : bytes) : bytes :=
  concat (map (fun c => if stripped c then [92; 120]%N ++ hex_byte c else [c]) s).

(** ArchiveRecord.dump(content=True), record.py:143-165; [out] is what was printed so
    far.  The content tuple is never empty, so the branch 'Content: none' is only taken for
    content=False.  Errors are tuples, which cannot be added to the text '\t'. *)
Definition dump_errors (out : bytes) (r : record) : outcome unit * bytes :=
  match r_errors r with
  | [] => (Ret tt, out)
  | _ => (Raise ETypeError, print out (B "Errors:"))
  end.
Definition dump_headers (out : bytes) (r : record) : bytes :=
  fold_left (fun out kv => print out ([9%N] ++ fst kv ++ [58%N] ++ snd kv)) (r_headers r) (print out (B "Headers:")).
Definition rec_dump (content : bool) (out : bytes) (r : record) (st : stream)
  : outcome unit * bytes * record * stream :=
  let out1 := dump_headers out r in
  if content then
    match rec_content r st with
    | (Ret (ct, body), r', st') =>
        let out2 := print out1 (B "Content Headers:") in
        match ct with
        | None => (Raise EAttributeError, out2, r', st')
        | Some ct =>
            let out3 := print out2 ([9%N] ++ ct_name r ++ B " : " ++ ct) in
            match body with
            | None => (Raise ETypeError, out3, r', st')
            | Some body =>
                let out4 := print out3 ([9%N] ++ cl_name r ++ B " : " ++ dec_nat (List.length body)) in
                let out5 := print out4 (B "Content:") in
                let out6 := print out5 ([9%N] ++ strip_sub (firstn (Nat.min 1024 (List.length body)) body)) in
                let out7 := print (print out6 ([9%N] ++ B "...")) [] in
                let '(o, out8) := dump_errors out7 r' in (o, out8, r', st')
            end
        end
    | (Raise e, r', st') => (Raise e, out1, r', st')
    | (Diverge, r', st') => (Diverge, out1, r', st')
    end
  else
    let '(o, out2) := dump_errors (print (print (print out1 (B "Content: none")) []) []) r in (o, out2, r, st).

(** str(e) of an error tuple (warc.py:203-271, arc.py:183-192) *)
Definition quoted (s : string) : bytes := [39%N] ++ B s ++ [39%N].
Definition show_perr (e : perr) : bytes :=
  let b := HttpRequest.repr_bytes in
  let tuple l := [40%N] ++ join (B ", ") l ++ [41%N] in
  match e with
  | ErrIgnored l => tuple [quoted "ignored line"; b l]
  | ErrTooMany => [40%N] ++ quoted "too many errors, giving up hope" ++ [44; 41]%N
  | ErrNoHeaders v => tuple [quoted "warc version but no headers"; b v]
  | ErrVersionNl n => tuple [quoted "incorrect newline in version"; b n]
  | ErrPrefix p => tuple [quoted "bad prefix on WARC version header"; b p]
  | ErrHeaderNl n => tuple [quoted "incorrect newline in header"; b n]
  | ErrFollowNl l n => tuple [quoted "incorrect newline in follow header"; b l; b n]
  | ErrInvalid n v => tuple [quoted "invalid header"; b n; b v]
  end.

(** dump_archive, warcdump.py:41-52, the loop body *)
Definition dump_item (name : bytes) (out : bytes) (st : stream) (it : item)
  : outcome bool * bytes * stream :=
  match it with
  | (off, Some r, _) =>
      match rec_dump true (print out (B "archive record at " ++ name ++ [58%N] ++ show_offset off)) r st with
      | (Ret _, out', _, st') => (Ret true, out', st')
      | (Raise e, out', _, st') => (Raise e, out', st')
      | (Diverge, out', _, st') => (Diverge, out', st')
      end
  | (_, None, []) => (Ret true, print (print out []) (B "note: no errors encountered in tail of file"), st)
  | (off, None, errs) =>
      (Ret true,
       fold_left (fun out e => print out ([9; 32]%N ++ show_perr e)) errs
         (print out (B "warc errors at " ++ name ++ [58%N] ++ dec_nat (match off with Some n => n | None => 0 end))), st)
  end.
Definition dump_file (out : bytes) (name : bytes) (st : stream) : outcome unit * bytes :=
  match for_read_records None true (dump_item name) out st with (o, out', _) => (o, out') end.
(** main, warcdump.py:24-38, with file names *)
Definition warcdump (gunzip : bytes -> bytes) (files : list input) : outcome unit * bytes :=
  over_files gunzip dump_file files [].
