(** HTTPMessage.feed_fd, messaging.py:63-76, on a binary file: such a file has no method
    readLine, so asking for a line raises AttributeError. *)
From Verif Require Export Http FileIO.
From Coq Require Import String List.
Open Scope list_scope.

Section Fd.
  Variable gz : bytes -> outcome bytes.
  Fixpoint feed_fd (fuel : nat) (m : msg) (f : file) : outcome (msg * bytes) * file :=
    match fuel with
    | O => (Diverge, f)
    | S fuel' =>
        let got (p : bytes * file) :=
          let '(text, f') := p in
          match feed gz m text with
          | Ret (m', []) => feed_fd fuel' m' f'
          | Ret (m', unread) => (Ret (m', unread), f')
          | Raise e => (Raise e, f')
          | Diverge => (Diverge, f')
          end in
        match feed_predict m with
        | WantLine => (Raise EAttributeError, f)
        | WantAll => got (f_read_all f)
        | WantAtMost n =>
            if Z.eqb n 0 then (Ret (m, []), f)
            else if Z.ltb n 0 then got (f_read_all f)
            else match f_read f n with
                 | (Ret text, f') => got (text, f')
                 | (Raise e, f') => (Raise e, f')
                 | (Diverge, f') => (Diverge, f')
                 end
        end
    end.
End Fd.
