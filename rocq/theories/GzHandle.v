(** write_to(out, gzip=True) and the kind of output: record.py:172-183.  GzipFile is built over
    [out] with mode 'ab' if [out] has no attribute mode, and otherwise without a mode, and then
    it takes the one of [out] (CPython, gzip.py, GzipFile.__init__). *)
From Verif Require Export Sink.
From Coq Require Import String List.
Open Scope list_scope.

(** the attribute mode of an object: missing, a text, or something else *)
Inductive mode_attr : Type := NoMode | ModeText (m : bytes) | ModeOther.

(** GzipFile(fileobj=out[, mode='ab']), record.py:173-176: [true] a writer, [false] a reader.
    mode.startswith('r') makes a reader, mode.startswith(('w', 'a', 'x')) a writer, any other text
    is a ValueError, and an object that is not a text has no startswith. *)
Definition gzip_open (m : mode_attr) : outcome bool :=
  match m with
  | NoMode => Ret true
  | ModeText (c :: _) =>
      if (c =? 114)%N then Ret false
      else if (c =? 119)%N || (c =? 97)%N || (c =? 120)%N then Ret true
      else Raise EValueError
  | ModeText [] => Raise EValueError
  | ModeOther => Raise EAttributeError
  end.
(** GzipFile.write of a reader *)
Definition put_reader (k : bytes) (b : bytes) : outcome unit * bytes := (Raise EOSError, k).
(** record.write_to(out, newline, gzip=True), record.py:167-185; last, the bytes that reached [out].
    Closing a reader writes nothing. *)
Definition write_gzip (g : gzipper) (m : mode_attr) (nl : bytes) (r : record) (st : stream)
  : outcome unit * record * stream * bytes :=
  match r_cf r with
  | CF_unset => (Raise EAttributeError, r, st, [])
  | _ =>
    if has_cf r && negb (r_valid r) then (Raise E_used, r, st, [])
    else match gzip_open m with
         | Ret true => write_to (Some g) nl r st
         | Ret false => write_calls put_reader nl r st []
         | Raise e => (Raise e, r, st, [])
         | Diverge => (Diverge, r, st, [])
         end
  end.

(** open(path, mode) for binary files: the letter, and whether there is a '+' *)
Inductive open_kind : Type := OpenR | OpenW | OpenA | OpenX.
(** the attribute mode of the file object this gives (CPython, FileIO: readable and writable is
    'rb+' unless it appends or was created with 'x') *)
Definition open_mode (k : open_kind) (plus : bool) : mode_attr :=
  ModeText (match k, plus with
            | OpenR, false => B "rb" | OpenW, false => B "wb" | OpenA, false => B "ab" | OpenX, false => B "xb"
            | OpenR, true | OpenW, true => B "rb+" | OpenA, true => B "ab+" | OpenX, true => B "xb+"
            end).
