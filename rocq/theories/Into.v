(** RecordStream.readinto, stream.py:151-155, for the buffers a caller can pass: a bytearray,
    which slice assignment can grow, or a memoryview, for which it raises ValueError when
    the sizes differ. *)
From Verif Require Export Reader.
From Coq Require Import List ZArith.

Inductive buffer : Type := Bytearray (b : bytes) | Memoryview (b : bytes).
Definition buffer_bytes (b : buffer) : bytes := match b with Bytearray x | Memoryview x => x end.
(** b[:len(tmp)] = tmp *)
Definition assign_prefix (b : buffer) (tmp : bytes) : outcome buffer :=
  match b with
  | Bytearray x => Ret (Bytearray (tmp ++ skipn (length tmp) x))
  | Memoryview x => if Nat.leb (length tmp) (length x) then Ret (Memoryview (tmp ++ skipn (length tmp) x))
                    else Raise EValueError
  end.
(** the number returned, the buffer afterwards (unchanged when it raised), the stream *)
Definition readinto (st : stream) (b : buffer) : outcome nat * buffer * stream :=
  match stream_read st (Some (Z.of_nat (length (buffer_bytes b)))) with
  | (Ret tmp, st') => match assign_prefix b tmp with
                      | Ret b' => (Ret (length tmp), b', st')
                      | Raise e => (Raise e, b, st')
                      | Diverge => (Diverge, b, st')
                      end
  | (Raise e, st') => (Raise e, b, st')
  | (Diverge, st') => (Diverge, b, st')
  end.
(** a caller's [k = f.readinto(b); while k: out += b[:k]; k = f.readinto(b)] *)
Fixpoint drain (fuel : nat) (st : stream) (b : buffer) (out : bytes) : outcome bytes * stream :=
  match fuel with
  | O => (Diverge, st)
  | S fuel' =>
      match readinto st b with
      | (Ret 0, _, st') => (Ret out, st')
      | (Ret k, b', st') => drain fuel' st' b' (out ++ firstn k (buffer_bytes b'))
      | (Raise e, _, st') => (Raise e, st')
      | (Diverge, _, st') => (Diverge, st')
      end
  end.
(** calls on a content file: those of [cop] and readinto; what each of them gave the caller *)
Inductive ccall : Type := Plain (o : cop) | Into (b : buffer).
Definition run_call (st : stream) (c : ccall) : outcome bytes * stream :=
  match c with
  | Plain o => run_cop st o
  | Into b => match readinto st b with
              | (Ret k, b', st') => (Ret (firstn k (buffer_bytes b')), st')
              | (Raise e, _, st') => (Raise e, st')
              | (Diverge, _, st') => (Diverge, st')
              end
  end.
Fixpoint run_calls (st : stream) (cs : list ccall) : outcome (list bytes) * stream :=
  match cs with
  | [] => (Ret [], st)
  | c :: cs' => match run_call st c with
                | (Ret d, st') => let '(r, st'') := run_calls st' cs' in (omap (cons d) r, st'')
                | (Raise e, st') => (Raise e, st')
                | (Diverge, st') => (Diverge, st')
                end
  end.
