(** warc2warc with any options over a file whose calls may fail (see Faults.v): the definitions of Tools.v once more, citing the same lines. *)
From Verif Require Export FaultTools.
From Coq Require Import String List ZArith.
Open Scope list_scope.

(** what has reached the output of write_to(gzip=...) when it ends: a member holding the text, or, if an exception broke it off, what the unfinished
    GzipFile leaves ([torn], see Record.v) *)
Definition sent {S} (gz : option gzipper) (out : bytes) (x : outcome unit * bytes * S) : outcome unit * bytes * S :=
  match x with
  | (Ret _, d, s) => (Ret tt, out ++ match gz with None => d | Some g => member g d end, s)
  | (Raise e, d, s) => (Raise e, out ++ match gz with None => d | Some g => torn g d end, s)
  | (Diverge, d, s) => (Diverge, out ++ match gz with None => d | Some g => torn g d end, s)
  end.
Section FaultyW2w.
  Context {F : Type} (ops : fops F) (budget : nat).
  (** record.write_to(out, gzip=...), record.py:167-185, for a record just read, or one whose content is held *)
  Definition x_emit_gz (gz : option gzipper) (out : bytes) (st : fstream F) (r : record) : outcome unit * bytes * fstream F :=
    match r_content r with
    | None => sent gz out (x_emit ops budget [] st r)
    | Some _ => match emit gz out nowhere r with (o, out', _) => (o, out', st) end
    end.
  Variables (http_gz : bytes -> outcome bytes) (unzlib ungzip : bytes -> option bytes).
  (** process, warc2warc.py:33-61 *)
  Definition x_w2w_process (gz : option gzipper) (decode : bool) (out : bytes) (st : fstream F) (r : record) : outcome unit * bytes * fstream F :=
    if decode && is_some_eq (rec_type r) V_RESPONSE then
      after_step (x_rec_content ops r st) out (fun c r' st' =>
        match snd c with
        | Some content =>
            match decode_step http_gz unzlib ungzip (fst c) content with
            | Ret _ => x_emit_gz gz out st' r'
            | Raise e => (Raise e, out, st')
            | Diverge => (Diverge, out, st')
            end
        | None => (Raise ETypeError, out, st')
        end)
    else x_emit_gz gz out st r.
End FaultyW2w.
