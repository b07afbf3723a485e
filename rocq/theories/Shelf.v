(** The records of one stream, kept by the caller: reading on, and calls on any of the
    records read so far, in any order: hanzo/warctools/stream.py:64-102, record.py:40-185.
    All these records have the stream itself for content file (record.py:62-82). *)
From Verif Require Export Life Reader.
From Coq Require Import String List.
Open Scope list_scope.

(** [Next]: one more step of a loop over read_records(); [On i op]: a call on the i-th record read *)
Inductive sop : Type := Next | On (i : nat) (op : rop).
Inductive sval : Type := VItem (it : item) | VCall (v : val) | VNoSuch.
Record shelf : Type := mkshelf { sh_recs : list record; sh_st : stream }.
Fixpoint put {A : Type} (l : list A) (i : nat) (x : A) : list A :=
  match l, i with
  | [], _ => []
  | _ :: t, O => x :: t
  | y :: t, S j => y :: put t j x
  end.
(** one step: its result, what it wrote, the records and the stream afterwards *)
Definition shelf_do (s : shelf) (o : sop) : outcome sval * bytes * shelf :=
  match o with
  | Next =>
      let '(x, st') := read_record (sh_st s) true in                                        (* stream.py:64-75, 88-102 *)
      (omap VItem x, [],
       mkshelf (sh_recs s ++ match x with Ret (_, Some r, _) => [r] | _ => [] end) st')
  | On i op =>
      match nth_error (sh_recs s) i with
      | None => (Ret VNoSuch, [], s)
      | Some r => let '(x, out, r', st') := rec_do r (sh_st s) op in (omap VCall x, out, mkshelf (put (sh_recs s) i r') st')
      end
  end.
(** any history (a call that does not end is the last one) *)
Fixpoint shelf_run (s : shelf) (ops : list sop) : list (outcome sval * bytes) * shelf :=
  match ops with
  | [] => ([], s)
  | o :: t =>
      match shelf_do s o with
      | (Diverge, out, s') => ([(Diverge, out)], s')
      | (x, out, s') => let '(xs, s'') := shelf_run s' t in ((x, out) :: xs, s'')
      end
  end.
