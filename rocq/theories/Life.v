(** One record object and everything a caller does with it, one call after the other:
    hanzo/warctools/record.py:40-185, warc.py:49-127. *)
From Verif Require Export Record.
From Coq Require Import String List.
Open Scope list_scope.

(** A caller's calls.  [ReadFile]: record.content_file.read(n) or .read().
    [AssignFile]: record.content_file = f (a file of the caller's own) or None. *)
Inductive rop : Type :=
| AskContent | AskType | AskLength
| AskHeader (name : bytes) | SetHeader (name value : bytes)
| ReadFile (limit : option nat)
| AssignFile (f : option reader)
| Write (gz : option gzipper) (nl : bytes).
(** what a call returns *)
Inductive val : Type :=
| VContent (c : option bytes * option bytes) | VType (t : option bytes) | VLength (n : Z)
| VHeader (v : option bytes) | VBytes (d : bytes) | VNone.

(** content_file.read(), as [cf_read] with a limit *)
Definition cf_read_all (c : cfile) (st : stream) : outcome bytes * cfile * stream :=
  match c with
  | CF_stream => match stream_read st None with (o, st') => (o, c, st') end
  | CF_own rd => (Ret (rd_read_all rd), CF_own [], st)
  | CF_none | CF_unset => (Raise EAttributeError, c, st)
  end.
(** one call: its result, what it wrote to its output, the record and the stream it was read from *)
Definition rec_do (r : record) (st : stream) (o : rop) : outcome val * bytes * record * stream :=
  match o with
  | AskContent => let '(x, r', st') := rec_content r st in (omap VContent x, [], r', st')          (* record.py:89-102 *)
  | AskType => let '(x, r', st') := rec_content_type r st in (omap VType x, [], r', st')           (* record.py:104-114 *)
  | AskLength => let '(x, r', st') := rec_content_length r st in (omap VLength x, [], r', st')     (* record.py:116-126 *)
  | AskHeader n => (Ret (VHeader (get_header r n)), [], r, st)                                     (* record.py:132-137 *)
  | SetHeader n v => (Ret VNone, [], set_header r n v, st)                                         (* record.py:139-141 *)
  | ReadFile lim =>                                                                                (* record.py:62-82 *)
      let '(x, c', st') := match lim with Some n => cf_read (r_cf r) st n | None => cf_read_all (r_cf r) st end in
      (omap VBytes x, [], with_valid (with_cf r c') (r_valid r), st')
  | AssignFile f => (Ret VNone, [], with_cf r (match f with Some rd => CF_own rd | None => CF_none end), st)  (* record.py:84-87 *)
  | Write gz nl => let '(x, r', st', out) := write_to gz nl r st in (omap (fun _ => VNone) x, out, r', st')   (* record.py:167-185 *)
  end.
(** a history of calls, going on after exceptions (a call that does not end is the last one) *)
Fixpoint rec_life (r : record) (st : stream) (ops : list rop) : list (outcome val * bytes) * record * stream :=
  match ops with
  | [] => ([], r, st)
  | o :: t =>
      match rec_do r st o with
      | (Diverge, out, r', st') => ([(Diverge, out)], r', st')
      | (x, out, r', st') => let '(xs, r'', st'') := rec_life r' st' t in ((x, out) :: xs, r'', st'')
      end
  end.
