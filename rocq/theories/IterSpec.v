(** What several iterators over one stream are to their caller. *)
From Verif Require Export Iters ShelfSpec.
From Coq Require Import String List ZArith.
Open Scope list_scope.

(** does an answer hand over a record? *)
Definition gives (y : outcome pval) : bool := match y with Ret (PItem (_, Some _, _)) => true | Ret (PRecord _) => true | _ => false end.
(** what a loop over the stream would have read, as an iterator of kind [k] shows it *)
Definition unplaced (it : item) : item := (None, snd (fst it), snd it).
Definition as_shown (k : gkind) (x : outcome item) : outcome pval :=
  match k with
  | ByRecords _ offsets => omap (fun it => PItem (if offsets then it else unplaced it)) x
  | ByIter => match x with
              | Ret (_, Some r, _) => Ret (PRecord r)
              | Ret (_, None, []) => Ret PStop
              | Ret (_, None, _) => Raise E_decode
              | Raise e => Raise e
              | Diverge => Diverge
              end
  end.

(** An iterator in the caller's hands: the number of records it gave, [None] once it was closed, or
    gave or raised anything else. *)
Definition held : Type := (gkind * option Z)%type.
Definition asks (i : held) : bool :=
  match i with
  | (_, None) => false
  | (ByRecords (Some l) _, Some n) => (n <? l)%Z
  | _ => true
  end.
Definition told_of (i : held) (y : outcome pval) : held := (fst i, if gives y then option_map (fun n => n + 1)%Z (snd i) else None).
(** A program on several iterators, next to the history of a single loop that reads on whenever one
    of the iterators that still ask is asked. *)
Inductive tells : list held -> list pop -> list (outcome pval * bytes) -> list sop -> list (outcome sval * bytes) -> Prop :=
| T_nil is : tells is [] [] [] []
| T_make is k ps ys ops xs : tells (is ++ [(k, Some 0%Z)]) ps ys ops xs -> tells is (Make k :: ps) ((Ret PNone, []) :: ys) ops xs
| T_no_gen is p g ps ys ops xs : p = Step g \/ p = Close g -> nth_error is g = None -> tells is ps ys ops xs -> tells is (p :: ps) ((Ret PNoGen, []) :: ys) ops xs
| T_close is g i ps ys ops xs : nth_error is g = Some i -> tells (put is g (fst i, None)) ps ys ops xs -> tells is (Close g :: ps) ((Ret PNone, []) :: ys) ops xs
(* it stops, and nothing is read *)
| T_stop is g i ps ys ops xs : nth_error is g = Some i -> asks i = false -> tells (put is g (fst i, None)) ps ys ops xs -> tells is (Step g :: ps) ((Ret PStop, []) :: ys) ops xs
(* it reads on *)
| T_read is g i x ps ys ops xs : nth_error is g = Some i -> asks i = true -> x <> Diverge -> tells (put is g (told_of i (as_shown (fst i) x))) ps ys ops xs ->
    tells is (Step g :: ps) ((as_shown (fst i) x, []) :: ys) (Next :: ops) ((omap VItem x, []) :: xs)
| T_read_hangs is g i ps : nth_error is g = Some i -> asks i = true -> tells is (Step g :: ps) [(Diverge, [])] [Next] [(Diverge, [])]
| T_call is i op x out ps ys ops xs : x <> Diverge -> tells is ps ys ops xs -> tells is (Call i op :: ps) ((omap PCall x, out) :: ys) (On i op :: ops) ((x, out) :: xs)
| T_call_hangs is i op out ps : tells is (Call i op :: ps) [(Diverge, out)] [On i op] [(Diverge, out)].

(** the kinds of the iterators a program makes; the answers it gets from the [g]-th of them *)
Definition made (ps : list pop) : list gkind := flat_map (fun p => match p with Make k => [k] | _ => [] end) ps.
Fixpoint answers (g : nat) (ps : list pop) (ys : list (outcome pval * bytes)) : list (outcome pval) :=
  match ps, ys with
  | Step g' :: ps', (y, _) :: ys' => (if Nat.eqb g' g then [y] else []) ++ answers g ps' ys'
  | _ :: ps', _ :: ys' => answers g ps' ys'
  | _, _ => []
  end.
(** everything handed over, by whichever iterator, in the order of time *)
Definition given (ys : list (outcome pval * bytes)) : list (outcome pval) := filter gives (map fst ys).
Definition endless (k : gkind) : Prop := match k with ByRecords (Some _) _ => False | _ => True end.
(** the answer that hands over the [j]-th record of an archive at offset [pos] *)
Definition hands (gz : bool) (pos : nat) (a : archive) (j : nat) (y : outcome pval) : Prop :=
  exists w sep, nth_error a j = Some (w, sep) /\
    let r := mkrec (RWarc (w_version w)) (w_headers w) [] None CF_stream true in
    (y = Ret (PRecord r) \/ y = Ret (PItem (None, Some r, [])) \/ y = Ret (PItem (shown gz (pos + List.length (archive_text (firstn j a))), Some r, []))).
Definition is_step (p : pop) : bool := match p with Step _ => true | _ => false end.
(** content files the program assigns do not give an empty chunk before their end *)
Definition program_files_ok (ps : list pop) : Prop := Forall (fun p => forall i rd, p = Call i (AssignFile (Some rd)) -> Forall (fun c => c <> []) rd) ps.
Definition is_item (y : outcome pval) : bool := match y with Ret (PItem _) => true | _ => false end.
(** a result of the file that holds a record, and the answers that hand it over *)
Definition has_record (x : outcome item) : bool := match x with Ret (_, Some _, _) => true | _ => false end.
Definition shows_item (x : outcome item) (y : outcome pval) : Prop := exists k, y = as_shown k x.
