(** Record objects and the lists they hold: hanzo/warctools/record.py:40-43, 51-52, 139-141 and warc.py:53-69, 216.  A record's headers
    and errors are Python lists, objects that several records (and the caller) may hold; elsewhere in the model they are
    values.  A list is an address in the list of all lists made so far. *)
From Verif Require Export Record.
From Coq Require Import String List.
Open Scope list_scope.

(** the arguments of an error() call; what the parser appends are such tuples too *)
Definition complaint : Type := list bytes.
Record world : Type := mkworld {
  w_headers : list (list header);         (* the header lists, by address *)
  w_errors : list (list complaint);       (* the error lists, by address *)
  w_records : list (nat * nat) }.         (* the records: addresses of their headers and errors *)

(** l[i] = x *)
Fixpoint put {A} (i : nat) (x : A) (l : list A) : list A :=
  match l, i with
  | [], _ => []
  | _ :: t, O => x :: t
  | a :: t, Datatypes.S i' => a :: put i' x t
  end.
(** x if x else []: the list given, unless there is none or it is empty: then a new one.  The address and the lists *)
Definition given_or_new {A} (lists : list (list A)) (x : option nat) : nat * list (list A) :=
  match x with
  | Some a => match nth a lists [] with
              | [] => (List.length lists, lists ++ [[]])
              | _ => (a, lists)
              end
  | None => (List.length lists, lists ++ [[]])
  end.

(** what a program does with records and lists; a record is its number, a list its address *)
Inductive rop : Type :=
| MakeHeaders (l : list header)               (* h = [...] *)
| MakeErrors (l : list complaint)
| NewRecord (h e : option nat)                (* WarcRecord(headers=h, errors=e, ...): record.py:40-43 *)
| ReadRecord (h : list header) (e : list complaint)  (* by a parser: lists of its own, warc.py:182, 216, 245, arc.py:104-147 *)
| SetHeader (r : nat) (n v : bytes)           (* record.set_header(n, v): record.py:139-141, a new list *)
| Complain (r : nat) (args : complaint)       (* record.error(args): record.py:51-52, in place *)
| AppendHeader (h : nat) (x : header)         (* h.append(x), also record.headers.append(x) *)
| AssignHeaders (r h : nat).                  (* record.headers = h *)
Definition do_rop (w : world) (o : rop) : world :=
  match o with
  | MakeHeaders l => mkworld (w_headers w ++ [l]) (w_errors w) (w_records w)
  | MakeErrors l => mkworld (w_headers w) (w_errors w ++ [l]) (w_records w)
  | NewRecord h e =>
      let '(a, hs) := given_or_new (w_headers w) h in
      let '(b, es) := given_or_new (w_errors w) e in
      mkworld hs es (w_records w ++ [(a, b)])
  | ReadRecord h e =>
      mkworld (w_headers w ++ [h]) (w_errors w ++ [e]) (w_records w ++ [(List.length (w_headers w), List.length (w_errors w))])
  | SetHeader r n v =>
      match nth_error (w_records w) r with
      | Some (a, b) =>
          let new := filter (fun kv => negb (bytes_eqb (fst kv) n)) (nth a (w_headers w) []) ++ [(n, v)] in
          mkworld (w_headers w ++ [new]) (w_errors w) (put r (List.length (w_headers w), b) (w_records w))
      | None => w
      end
  | Complain r args =>
      match nth_error (w_records w) r with
      | Some (_, b) => mkworld (w_headers w) (put b (nth b (w_errors w) [] ++ [args]) (w_errors w)) (w_records w)
      | None => w
      end
  | AppendHeader h x => mkworld (put h (nth h (w_headers w) [] ++ [x]) (w_headers w)) (w_errors w) (w_records w)
  | AssignHeaders r h =>
      match nth_error (w_records w) r with
      | Some (_, b) => mkworld (w_headers w) (w_errors w) (put r (h, b) (w_records w))
      | None => w
      end
  end.
Definition do_rops (w : world) (l : list rop) : world := fold_left do_rop l w.
Definition no_world : world := mkworld [] [] [].

(** record.headers and record.errors, as values *)
Definition headers_of (w : world) (r : nat) : option (list header) :=
  match nth_error (w_records w) r with Some (a, _) => Some (nth a (w_headers w) []) | None => None end.
Definition errors_of (w : world) (r : nat) : option (list complaint) :=
  match nth_error (w_records w) r with Some (_, b) => Some (nth b (w_errors w) []) | None => None end.
