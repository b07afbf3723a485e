(** Several iterators over one stream, used side by side: read_records(limit, offsets) and
    __iter__ are generators (hanzo/warctools/stream.py:64-86), so nothing is read when they are
    made, and every next() on any of them reads on in the same file. *)
From Verif Require Export Shelf.
From Coq Require Import String List ZArith.
Open Scope list_scope.

(** stream.read_records(limit, offsets); iter(stream) *)
Inductive gkind : Type := ByRecords (limit : option Z) (offsets : bool) | ByIter.
(** where a generator stands: about to test its [while] with [nrecords] = n; at the yield of an item
    without a record, so that [if not record: break] comes next (stream.py:73-75); finished *)
Inductive gstate : Type := Running (n : Z) | Breaking | Finished.
Record gen : Type := mkgen { g_kind : gkind; g_state : gstate }.
Record hall : Type := mkhall { h_shelf : shelf; h_gens : list gen }.

(** what a program does: make an iterator, next(it), it.close(), or a call on the i-th record it was handed *)
Inductive pop : Type := Make (k : gkind) | Step (g : nat) | Close (g : nat) | Call (i : nat) (op : rop).
(** what it gets: an item of read_records, a record of __iter__, StopIteration, or the result of the call *)
Inductive pval : Type := PNone | PItem (it : item) | PRecord (r : record) | PStop | PNoGen | PCall (v : sval).

(** next(g).  The record handed over is added to the shelf. *)
Definition gen_step (s : shelf) (g : gen) : outcome pval * shelf * gen :=
  match g_kind g, g_state g with
  | _, Finished => (Ret PStop, s, g)
  | k, Breaking => (Ret PStop, s, mkgen k Finished)                                          (* stream.py:74-75 *)
  | ByRecords limit offsets, Running n =>
      if match limit with None => true | Some l => (n <? l)%Z end then                      (* stream.py:70 *)
        let '(x, st') := read_record (sh_st s) offsets in                                   (* stream.py:71 *)
        match x with
        | Ret (o, Some r, errs) => (Ret (PItem (o, Some r, errs)), mkshelf (sh_recs s ++ [r]) st', mkgen (g_kind g) (Running (n + 1)))
        | Ret (o, None, errs) => (Ret (PItem (o, None, errs)), mkshelf (sh_recs s) st', mkgen (g_kind g) Breaking)
        | Raise e => (Raise e, mkshelf (sh_recs s) st', mkgen (g_kind g) Finished)
        | Diverge => (Diverge, mkshelf (sh_recs s) st', g)
        end
      else (Ret PStop, s, mkgen (g_kind g) Finished)
  | ByIter, Running n =>
      let '(x, st') := read_record (sh_st s) false in                                       (* stream.py:79 *)
      match x with
      | Ret (_, Some r, _) => (Ret (PRecord r), mkshelf (sh_recs s ++ [r]) st', mkgen ByIter (Running (n + 1))) (* stream.py:80-81; n is only counted here, never tested *)
      | Ret (_, None, []) => (Ret PStop, mkshelf (sh_recs s) st', mkgen ByIter Finished)     (* stream.py:85-86 *)
      | Ret (_, None, _) => (Raise E_decode, mkshelf (sh_recs s) st', mkgen ByIter Finished) (* stream.py:82-84 *)
      | Raise e => (Raise e, mkshelf (sh_recs s) st', mkgen ByIter Finished)
      | Diverge => (Diverge, mkshelf (sh_recs s) st', g)
      end
  end.
Definition hall_do (h : hall) (p : pop) : outcome pval * bytes * hall :=
  match p with
  | Make k => (Ret PNone, [], mkhall (h_shelf h) (h_gens h ++ [mkgen k (Running 0)]))
  | Step i =>
      match nth_error (h_gens h) i with
      | None => (Ret PNoGen, [], h)
      | Some g => let '(x, s', g') := gen_step (h_shelf h) g in (x, [], mkhall s' (put (h_gens h) i g'))
      end
  | Close i =>
      match nth_error (h_gens h) i with
      | None => (Ret PNoGen, [], h)
      | Some g => (Ret PNone, [], mkhall (h_shelf h) (put (h_gens h) i (mkgen (g_kind g) Finished)))
      end
  | Call i op => let '(x, out, s') := shelf_do (h_shelf h) (On i op) in (omap PCall x, out, mkhall s' (h_gens h))
  end.
Fixpoint hall_run (h : hall) (ps : list pop) : list (outcome pval * bytes) * hall :=
  match ps with
  | [] => ([], h)
  | p :: t =>
      match hall_do h p with
      | (Diverge, out, h') => ([(Diverge, out)], h')
      | (x, out, h') => let '(xs, h'') := hall_run h' t in ((x, out) :: xs, h'')
      end
  end.
