(** Binary files as Python presents them: contents and a position.

    [open(name, 'rb')] gives a BufferedReader; tests and callers also pass
    BytesIO.  They differ here only in read(n) for n < -1 (ValueError against
    read-all), recorded by [f_strict].  Part of the trusted base. *)
From Verif Require Export PyBytes.

Record file : Type := mkfile { f_data : bytes; f_pos : nat; f_strict : bool }.

(** bytes from the position to the end *)
Definition f_rest (f : file) : bytes := skipn (f_pos f) (f_data f).
Definition f_advance (f : file) (n : nat) : file :=
  mkfile (f_data f) (f_pos f + n) (f_strict f).

(** fh.tell() *)
Definition f_tell (f : file) : nat := f_pos f.
(** fh.read() *)
Definition f_read_all (f : file) : bytes * file :=
  (f_rest f, f_advance f (length (f_rest f))).
(** fh.read(n) *)
Definition f_read (f : file) (n : Z) : outcome bytes * file :=
  if Z.ltb n 0 then
    if Z.eqb n (-1) || negb (f_strict f)
    then let '(d, f') := f_read_all f in (Ret d, f')
    else (Raise EValueError, f)
  else
    let d := firstn (Z.to_nat n) (f_rest f) in
    (Ret d, f_advance f (length d)).

(** the first line of [s], with its LF if there is one *)
Fixpoint take_line (s : bytes) : bytes :=
  match s with
  | [] => []
  | c :: t => if N.eqb c 10 then [c] else c :: take_line t
  end.
(** fh.readline() *)
Definition f_readline (f : file) : bytes * file :=
  let l := take_line (f_rest f) in (l, f_advance f (length l)).
(** fh.readline(n): a negative limit means no limit *)
Definition f_readline_lim (f : file) (n : Z) : bytes * file :=
  let l := take_line (f_rest f) in
  let l' := if Z.ltb n 0 then l else firstn (Z.to_nat n) l in
  (l', f_advance f (length l')).
(** fh.seek(pos) with whence 0; a negative position raises OSError (a file) or ValueError (BytesIO) *)
Definition f_seek (f : file) (pos : Z) : outcome unit * file :=
  if Z.ltb pos 0 then (Raise (if f_strict f then EOSError else EValueError), f)
  else (Ret tt, mkfile (f_data f) (Z.to_nat pos) (f_strict f)).
(** fh.seek(delta, 1) *)
Definition f_seek_cur (f : file) (delta : Z) : outcome unit * file :=
  f_seek f (Z.of_nat (f_pos f) + delta)%Z.
