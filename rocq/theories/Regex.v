(** A backtracking matcher for the regular expressions of warctools, following
    the documented semantics of Python's [re]: alternatives are tried left to
    right, greedy loops try the longest iteration first and lazy loops the
    shortest, and the first overall success wins.  Loops occur in the code only
    over single-byte classes, so that is what the syntax offers; groups capture
    the substring matched.  Matching is [re.match] (anchored at the start). *)
From Verif Require Export PyBytes.

Inductive re : Type :=
| REps
| RChr (p : N -> bool)                 (** one byte of a class *)
| RSeq (r1 r2 : re)
| RAlt (r1 r2 : re)                    (** r1|r2, r1 first *)
| RStar (greedy : bool) (p : N -> bool) (** [class]* or [class]*? *)
| RGrp (n : nat) (r : re)              (** capturing group *)
| RBol                                 (** ^ *)
| REol                                 (** $ *)
| REos                                 (** \Z *)
| RWordB.                              (** \b *)

Definition groups : Type := list (nat * bytes).

(** loops over a class; [pre] is the text already consumed, reversed *)
Fixpoint star_greedy {A} (p : N -> bool) (pre suf : bytes)
    (k : bytes -> bytes -> option A) : option A :=
  match suf with
  | c :: t => if p c then
                match star_greedy p (c :: pre) t k with
                | Some x => Some x
                | None => k pre suf
                end
              else k pre suf
  | [] => k pre suf
  end.
Fixpoint star_lazy {A} (p : N -> bool) (pre suf : bytes)
    (k : bytes -> bytes -> option A) : option A :=
  match k pre suf with
  | Some x => Some x
  | None => match suf with
            | c :: t => if p c then star_lazy p (c :: pre) t k else None
            | [] => None
            end
  end.

Definition word_at (s : bytes) : bool :=
  match s with c :: _ => is_word c | [] => false end.

Fixpoint rmatch {A} (r : re) (pre suf : bytes) (g : groups)
    (k : bytes -> bytes -> groups -> option A) {struct r} : option A :=
  match r with
  | REps => k pre suf g
  | RChr p => match suf with
              | c :: t => if p c then k (c :: pre) t g else None
              | [] => None
              end
  | RSeq r1 r2 => rmatch r1 pre suf g (fun pre' suf' g' => rmatch r2 pre' suf' g' k)
  | RAlt r1 r2 => match rmatch r1 pre suf g k with
                  | Some x => Some x
                  | None => rmatch r2 pre suf g k
                  end
  | RStar true p => star_greedy p pre suf (fun pre' suf' => k pre' suf' g)
  | RStar false p => star_lazy p pre suf (fun pre' suf' => k pre' suf' g)
  | RGrp n r1 =>
      rmatch r1 pre suf g
        (fun pre' suf' g' =>
           k pre' suf' ((n, rev (firstn (length pre' - length pre) pre')) :: g'))
  | RBol => match pre with [] => k pre suf g | _ => None end
  | REol => match suf with
            | [] => k pre suf g
            | [10%N] => k pre suf g
            | _ => None
            end
  | REos => match suf with [] => k pre suf g | _ => None end
  | RWordB => if xorb (word_at pre) (word_at suf) then k pre suf g else None
  end.

(** re.match(r, s): the captured groups, or None. *)
Definition re_match (r : re) (s : bytes) : option groups :=
  rmatch r [] s [] (fun _ _ g => Some g).
Definition re_test (r : re) (s : bytes) : bool :=
  match re_match r s with Some _ => true | None => false end.

(** match.group(n); a group that did not take part is None in Python *)
Fixpoint group_opt (n : nat) (g : groups) : option bytes :=
  match g with
  | [] => None
  | (m, s) :: g' => if Nat.eqb n m then Some s else group_opt n g'
  end.
Definition group (n : nat) (g : groups) : bytes :=
  match group_opt n g with Some s => s | None => [] end.

(** ** Classes and derived forms *)
Definition lit (c : N) : re := RChr (N.eqb c).
(** literal under re.IGNORECASE (bytes patterns: ASCII case only) *)
Definition lit_i (c : N) : re := RChr (fun x => N.eqb (to_lower c) (to_lower x)).
Fixpoint rstr (s : bytes) : re :=
  match s with [] => REps | c :: t => RSeq (lit c) (rstr t) end.
Fixpoint rstr_i (s : bytes) : re :=
  match s with [] => REps | c :: t => RSeq (lit_i c) (rstr_i t) end.
(** [.] without DOTALL *)
Definition dot (c : N) : bool := negb (N.eqb c 10).
Definition ropt (r : re) : re := RAlt r REps.     (** r?  (greedy) *)
Definition rplus (greedy : bool) (p : N -> bool) : re := RSeq (RChr p) (RStar greedy p).

(** ** re.split(r, s, maxsplit) for a pattern that never matches the empty
    string and always consumes exactly one byte (the only use in the code is
    [\b\s|\s\b]).  Scans left to right; [cur] is the current field, reversed.
    [max = None] is Python's maxsplit=0 (no limit). *)
Fixpoint re_split1 (r : re) (max : option nat) (pre suf cur : bytes) : list bytes :=
  match suf with
  | [] => [rev cur]
  | c :: t =>
      let here := match max with
                  | Some O => false
                  | _ => match rmatch r pre suf [] (fun _ _ _ => Some tt) with
                         | Some _ => true
                         | None => false
                         end
                  end in
      if here then
        rev cur :: re_split1 r (match max with Some (S m) => Some m | _ => max end)
                             (c :: pre) t []
      else re_split1 r max (c :: pre) t (c :: cur)
  end.
Definition re_split (r : re) (maxsplit : nat) (s : bytes) : list bytes :=
  re_split1 r (match maxsplit with O => None | _ => Some maxsplit end) [] s [].
