(** What kept records are to their caller. *)
From Verif Require Export Shelf LifeSpec.
From Coq Require Import String List.
Open Scope list_scope.

(** A kept record is as in LifeSpec.v, but its content file may be the one all records of
    the stream share. *)
Inductive place : Type := Own (left : bytes) | Shared.
Record kept_rec : Type := mkk {
  k_class : rclass;
  k_headers : list header;
  k_known : option (option bytes * option bytes);
  k_file : option (place * bool) }.
Definition shares (k : kept_rec) : bool := match k_file k with Some (Shared, _) => true | _ => false end.
(** as a record of its own, [left] being what is left in the shared file *)
Definition viewed (left : bytes) (k : kept_rec) : obj :=
  mkobj (k_class k) (k_headers k) (k_known k)
        (match k_file k with None => None | Some (Own d, u) => Some (d, u) | Some (Shared, u) => Some (left, u) end).
(** and back, after a call that made [o] of it: it goes on sharing unless it has lost the
    file or was given another *)
Definition again (k : kept_rec) (op : rop) (o : obj) : kept_rec :=
  mkk (o_class o) (o_headers o) (o_known o)
      (match o_file o with
       | None => None
       | Some (d, u) => Some (match op with AssignFile _ => Own d | _ => if shares k then Shared else Own d end, u)
       end).

(** The caller's desk: the records read so far, what is left of the payload of the last
    of them, where the next record starts, and the records still to come. *)
Record desk : Type := mkdesk { d_recs : list kept_rec; d_left : bytes; d_pos : nat; d_coming : archive }.
Definition shown (gz : bool) (n : nat) : option nat := if gz then None else Some n.
Definition new_rec (w : wrec) : kept_rec := mkk (RWarc (w_version w)) (w_headers w) None (Some (Shared, false)).
Inductive moves (gz : bool) : desk -> sop -> outcome sval * bytes -> desk -> Prop :=
| M_next d w sep a : d_coming d = (w, sep) :: a ->
    moves gz d Next (Ret (VItem (shown gz (d_pos d), Some (mkrec (RWarc (w_version w)) (w_headers w) [] None CF_stream true), [])), [])
      (mkdesk (d_recs d ++ [new_rec w]) (w_body w) (d_pos d + List.length (wrec_text w) + List.length sep) a)
| M_end d : d_coming d = [] ->
    moves gz d Next (Ret (VItem (shown gz (d_pos d), None, [])), []) (mkdesk (d_recs d) [] (d_pos d) [])
| M_call d i op k x out taken o : nth_error (d_recs d) i = Some k -> shares k = false -> does (viewed [] k) op x out taken o ->
    moves gz d (On i op) (omap VCall x, out) (mkdesk (put (d_recs d) i (again k op o)) (d_left d) (d_pos d) (d_coming d))
(* a record that shares the file reads what is left of the last record's payload, whichever record it is *)
| M_shared d i op k x out taken o left : nth_error (d_recs d) i = Some k -> shares k = true -> does (viewed (d_left d) k) op x out taken o ->
    d_left d = taken ++ left -> (forall n, op = ReadFile (Some n) -> taken = firstn n (d_left d)) ->
    moves gz d (On i op) (omap VCall x, out) (mkdesk (put (d_recs d) i (again k op o)) left (d_pos d) (d_coming d))
| M_none d i op : nth_error (d_recs d) i = None -> moves gz d (On i op) (Ret VNoSuch, []) d.
Inductive moves_all (gz : bool) : desk -> list sop -> list (outcome sval * bytes) -> desk -> Prop :=
| MA_nil d : moves_all gz d [] [] d
| MA_cons d op x d1 ops xs d2 : moves gz d op x d1 -> moves_all gz d1 ops xs d2 -> moves_all gz d (op :: ops) (x :: xs) d2.
