(** Python byte strings and the byte-string primitives used by warctools.

    These definitions model CPython's [bytes] methods and [int()] / [str()];
    they are the runtime the code under /repo relies on, and part of the
    trusted base.  A byte string is a [list N]; real bytes are below 256, the
    theorems hold for the larger type. *)
From Coq Require Export List NArith ZArith Bool.
From Coq Require Import Ascii String Lia.
Export ListNotations.
Open Scope list_scope.

Definition byte : Type := N.
Definition bytes : Type := list N.

(** Byte-string literals: [B "text"] is Python's b"text". *)
Definition B (s : string) : bytes := List.map N_of_ascii (list_ascii_of_string s).

Definition LF : N := 10%N.
Definition CR : N := 13%N.
Definition SP : N := 32%N.
Definition TAB : N := 9%N.
Definition COLON : N := 58%N.
Definition CRLF : bytes := [13; 10]%N.

(** [a == b] on bytes. *)
Fixpoint bytes_eqb (a b : bytes) : bool :=
  match a, b with
  | [], [] => true
  | x :: a', y :: b' => N.eqb x y && bytes_eqb a' b'
  | _, _ => false
  end.

(** [x in (a, b, ...)] for a tuple/list of bytes. *)
Definition in_list (x : bytes) (l : list bytes) : bool := existsb (bytes_eqb x) l.

(** Python's ASCII white space: space, \t \n \v \f \r.  The same set is used by
    bytes.strip(), bytes.split(), int() and the bytes regex class \s. *)
Definition is_space (c : N) : bool := N.eqb c 32 || (N.leb 9 c && N.leb c 13).
Definition is_digit (c : N) : bool := N.leb 48 c && N.leb c 57.
Definition is_upper (c : N) : bool := N.leb 65 c && N.leb c 90.
Definition is_lower (c : N) : bool := N.leb 97 c && N.leb c 122.
(** regex class \w on bytes (ASCII only). *)
Definition is_word (c : N) : bool :=
  is_digit c || is_upper c || is_lower c || N.eqb c 95.

Definition to_lower (c : N) : N := if is_upper c then (c + 32)%N else c.
Definition to_upper (c : N) : N := if is_lower c then (c - 32)%N else c.
(** bytes.lower() / bytes.upper() *)
Definition lower (s : bytes) : bytes := List.map to_lower s.
Definition upper (s : bytes) : bytes := List.map to_upper s.

(** Drop the longest prefix of bytes satisfying [p]. *)
Fixpoint drop_while (p : N -> bool) (s : bytes) : bytes :=
  match s with
  | [] => []
  | c :: t => if p c then drop_while p t else s
  end.
(** bytes.lstrip() / rstrip() / strip() with the default white-space set. *)
Definition lstrip (s : bytes) : bytes := drop_while is_space s.
Definition rstrip (s : bytes) : bytes := rev (drop_while is_space (rev s)).
Definition strip (s : bytes) : bytes := rstrip (lstrip s).
(** bytes.rstrip(b'\r\n') *)
Definition rstrip_crlf (s : bytes) : bytes :=
  rev (drop_while (fun c => N.eqb c 13 || N.eqb c 10) (rev s)).

(** bytes.startswith / endswith *)
Fixpoint startswith (p s : bytes) : bool :=
  match p, s with
  | [], _ => true
  | x :: p', y :: s' => N.eqb x y && startswith p' s'
  | _ :: _, [] => false
  end.
Definition endswith (p s : bytes) : bool := startswith (rev p) (rev s).

(** [sub in s] *)
Fixpoint contains (sub s : bytes) : bool :=
  startswith sub s || match s with [] => false | _ :: t => contains sub t end.

(** s.split(sep, 1) for a one-byte separator: [None] when there is no
    separator (Python returns a one-element list). *)
Fixpoint split_once (sep : N) (s : bytes) : option (bytes * bytes) :=
  match s with
  | [] => None
  | c :: t =>
      if N.eqb c sep then Some ([], t)
      else match split_once sep t with
           | Some (a, b) => Some (c :: a, b)
           | None => None
           end
  end.
(** s.split(sep, maxsplit) for a one-byte separator. *)
Fixpoint split_max (n : nat) (sep : N) (s : bytes) : list bytes :=
  match n with
  | O => [s]
  | S n' => match split_once sep s with
            | None => [s]
            | Some (a, b) => a :: split_max n' sep b
            end
  end.
(** s.split(sep) for a one-byte separator (no limit). *)
Fixpoint split_all (sep : N) (s : bytes) : list bytes :=
  match s with
  | [] => [[]]
  | c :: t =>
      if N.eqb c sep then [] :: split_all sep t
      else match split_all sep t with
           | w :: ws => (c :: w) :: ws
           | [] => [[c]]
           end
  end.
(** s.split() : runs of white space separate, no empty words. *)
Fixpoint split_ws_aux (cur : bytes) (s : bytes) : list bytes :=
  match s with
  | [] => match cur with [] => [] | _ => [rev cur] end
  | c :: t =>
      if is_space c then
        match cur with
        | [] => split_ws_aux [] t
        | _ => rev cur :: split_ws_aux [] t
        end
      else split_ws_aux (c :: cur) t
  end.
Definition split_ws (s : bytes) : list bytes := split_ws_aux [] s.

(** sep.join(parts) *)
Fixpoint join (sep : bytes) (parts : list bytes) : bytes :=
  match parts with
  | [] => []
  | [p] => p
  | p :: ps => p ++ sep ++ join sep ps
  end.

(** s.find(c, start): index of the first [c] at or after [start]. *)
Fixpoint find_byte (c : N) (s : bytes) : option nat :=
  match s with
  | [] => None
  | x :: t => if N.eqb x c then Some O
              else match find_byte c t with Some n => Some (S n) | None => None end
  end.
Definition find_from (c : N) (start : nat) (s : bytes) : option nat :=
  match find_byte c (skipn start s) with
  | Some n => Some (start + n)
  | None => None
  end.

(** ** int(b, base)  (CPython PyLong_FromString)
    optional white space, optional sign, for base 16 an optional 0x / 0X that may
    be followed by one underscore, then digits with single underscores between
    them, optional white space, end.  Anything else is ValueError ([None]).
    Simplification: the limit of 4300 decimal digits of recent CPythons is not
    modelled. *)
Definition digit_val (base : Z) (c : N) : option Z :=
  let v := if is_digit c then Some (Z.of_N c - 48)%Z
           else if is_lower c then Some (Z.of_N c - 87)%Z
           else if is_upper c then Some (Z.of_N c - 55)%Z
           else None in
  match v with
  | Some d => if Z.ltb d base then Some d else None
  | None => None
  end.
(** [prev_us]: the previous character was an underscore. *)
Fixpoint int_digits (base acc : Z) (prev_us : bool) (s : bytes) : option (Z * bytes) :=
  match s with
  | [] => if prev_us then None else Some (acc, [])
  | c :: t =>
      if N.eqb c 95 then
        if prev_us then None else int_digits base acc true t
      else match digit_val base c with
           | Some d => int_digits base (acc * base + d)%Z false t
           | None => if prev_us then None else Some (acc, s)
           end
  end.
Definition int_unsigned (base : Z) (s : bytes) : option (Z * bytes) :=
  match s with
  | c :: _ => match digit_val base c with
              | Some _ => int_digits base 0%Z false s
              | None => None
              end
  | [] => None
  end.
Definition int_prefix (base : Z) (s : bytes) : bytes :=
  match s with
  | 48%N :: x :: t =>
      if Z.eqb base 16 && (N.eqb x 120 || N.eqb x 88) then
        match t with
        | 95%N :: t' => t'
        | _ => t
        end
      else s
  | _ => s
  end.
Definition int_sign (s : bytes) : bool * bytes :=
  match s with
  | 43%N :: t => (false, t)
  | 45%N :: t => (true, t)
  | _ => (false, s)
  end.
Definition py_int (base : Z) (s : bytes) : option Z :=
  let '(neg, s2) := int_sign (lstrip s) in
  match int_unsigned base (int_prefix base s2) with
  | Some (v, rest) =>
      match lstrip rest with
      | [] => Some (if neg then (- v)%Z else v)
      | _ => None
      end
  | None => None
  end.

(** ** str(n).encode('ascii') *)
Fixpoint dec_fuel (f : nat) (n : N) : bytes :=
  match f with
  | O => []
  | S f' => if N.ltb n 10 then [(48 + n)%N]
            else dec_fuel f' (n / 10)%N ++ [(48 + n mod 10)%N]
  end.
Definition dec_N (n : N) : bytes := dec_fuel (S (N.size_nat n)) n.
Definition dec_nat (n : nat) : bytes := dec_N (N.of_nat n).
Definition dec_Z (z : Z) : bytes :=
  match z with
  | Z0 => dec_N 0
  | Zpos p => dec_N (Npos p)
  | Zneg p => 45%N :: dec_N (Npos p)
  end.

(** Python slicing s[a:b] with non-negative [a]; a negative [b] counts from the
    end. *)
Definition slice (s : bytes) (a : nat) (b : Z) : bytes :=
  let b' := if Z.ltb b 0 then Z.max 0 (b + Z.of_nat (List.length s))%Z else b in
  firstn (Z.to_nat b' - a) (skipn a s).

(** ** Exceptions as values *)
Inductive exn : Type :=
| ETypeError | EValueError | EAttributeError | EIndexError | ENameError
| EEOFError | EOSError | EZlibError | EException (msg : bytes).

(** Result of running code: a value, an exception, or no result at all (an
    endless loop; a loop that ran out of fuel). *)
Inductive outcome (A : Type) : Type :=
| Ret (a : A) | Raise (e : exn) | Diverge.
Arguments Ret {A} a. Arguments Raise {A} e. Arguments Diverge {A}.

Definition bind {A C} (x : outcome A) (f : A -> outcome C) : outcome C :=
  match x with Ret a => f a | Raise e => Raise e | Diverge => Diverge end.
Definition omap {A C} (f : A -> C) (x : outcome A) : outcome C :=
  match x with Ret a => Ret (f a) | Raise e => Raise e | Diverge => Diverge end.
