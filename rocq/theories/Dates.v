(** Dates in ARC and WARC records: datetime.strptime with the two formats used by
    hanzo/arc2warc.py, and warc_datetime_str of hanzo/warctools/warc.py. *)
From Verif Require Export Record.
From Coq Require Import String List Lia NArith ZArith.
Open Scope list_scope.

(** datetime.datetime *)
Record datetime : Type := mkdt { dt_year : N; dt_month : N; dt_day : N; dt_hour : N; dt_min : N; dt_sec : N; dt_us : N }.
Definition leap (y : N) : bool := N.eqb (y mod 4) 0 && (negb (N.eqb (y mod 100) 0) || N.eqb (y mod 400) 0).
Definition month_days (y m : N) : N :=
  if N.eqb m 2 then (if leap y then 29 else 28)
  else if N.eqb m 4 || N.eqb m 6 || N.eqb m 9 || N.eqb m 11 then 30 else 31.
(** datetime(y, m, d, h, mi, s): ValueError (None) when out of range *)
Definition new_datetime (y m d h mi s : N) : option datetime :=
  if (N.leb 1 y && N.leb y 9999 && N.leb 1 m && N.leb m 12 && N.leb 1 d && N.leb d (month_days y m)
      && N.leb h 23 && N.leb mi 59 && N.leb s 59)%bool
  then Some (mkdt y m d h mi s 0) else None.

(** d.isoformat(): %04d-%02d-%02dT%02d:%02d:%02d, then .%06d unless there are no
    microseconds (year at most 9999) *)
Definition dig (n : N) : N := (48 + n mod 10)%N.
Definition pad2 (n : N) : bytes := [dig (n / 10); dig n].
Definition pad4 (n : N) : bytes := pad2 (n / 100) ++ pad2 n.
Definition pad6 (n : N) : bytes := pad4 (n / 100) ++ pad2 n.
Definition isoformat (d : datetime) : bytes :=
  pad4 (dt_year d) ++ B "-" ++ pad2 (dt_month d) ++ B "-" ++ pad2 (dt_day d) ++ B "T" ++
  pad2 (dt_hour d) ++ B ":" ++ pad2 (dt_min d) ++ B ":" ++ pad2 (dt_sec d) ++
  (if N.eqb (dt_us d) 0 then [] else B "." ++ pad6 (dt_us d)).
(** s[:s.find('.')] when there is a dot *)
Fixpoint before_dot (s : bytes) : bytes :=
  match s with [] => [] | c :: t => if N.eqb c 46 then [] else c :: before_dot t end.
(** warc_datetime_str, warc.py:361-365 *)
Definition warc_datetime_str (d : datetime) : bytes := before_dot (isoformat d) ++ B "Z".

(** ** strptime *)
(** The regular expression the format is turned into: for each directive its
    alternatives, tried in order with backtracking (CPython's _strptime.py).  The
    classes hold only ASCII bytes, so a date that cannot be decoded as ASCII is a
    ValueError here too (UnicodeDecodeError is a ValueError). *)
Definition rng (a b c : N) : bool := N.leb (48 + a) c && N.leb c (48 + b).
Definition one (a c : N) : bool := N.eqb c (48 + a).
Definition any_digit : N -> bool := rng 0 9.
Definition directive : Type := list (list (N -> bool)).
Definition F_Y : directive := [[any_digit; any_digit; any_digit; any_digit]].
Definition F_m : directive := [[one 1; rng 0 2]; [one 0; rng 1 9]; [rng 1 9]].
Definition F_d : directive :=
  [[one 3; rng 0 1]; [rng 1 2; any_digit]; [one 0; rng 1 9]; [rng 1 9]; [N.eqb 32; rng 1 9]].
Definition F_H : directive := [[one 2; rng 0 3]; [rng 0 1; any_digit]; [any_digit]].
Definition F_M : directive := [[rng 0 5; any_digit]; [any_digit]].
Definition F_S : directive := [[one 6; rng 0 1]; [rng 0 5; any_digit]; [any_digit]].
Definition FORMAT14 : list directive := [F_Y; F_m; F_d; F_H; F_M; F_S].   (* %Y%m%d%H%M%S *)
Definition FORMAT8 : list directive := [F_Y; F_m; F_d].                  (* %Y%m%d *)
Fixpoint take_alt (alt : list (N -> bool)) (s : bytes) : option (bytes * bytes) :=
  match alt, s with
  | [], _ => Some ([], s)
  | p :: alt', c :: t => if p c then match take_alt alt' t with
                                     | Some (v, r) => Some (c :: v, r)
                                     | None => None
                                     end
                         else None
  | _ :: _, [] => None
  end.
Fixpoint try_alts (rest : bytes -> option (list bytes * bytes)) (alts : directive) (s : bytes)
  : option (list bytes * bytes) :=
  match alts with
  | [] => None
  | a :: alts' =>
      match take_alt a s with
      | Some (v, s') => match rest s' with
                        | Some (vs, r) => Some (v :: vs, r)
                        | None => try_alts rest alts' s
                        end
      | None => try_alts rest alts' s
      end
  end.
Fixpoint match_format (fs : list directive) (s : bytes) : option (list bytes * bytes) :=
  match fs with
  | [] => Some ([], s)
  | f :: fs' => try_alts (match_format fs') f s
  end.
(** int() of what a directive matched (the day may have a leading space) *)
Definition number (v : bytes) : N :=
  fold_left (fun n c => if is_digit c then (10 * n + (c - 48))%N else n) v 0%N.
(** datetime.strptime(s, format); None is ValueError *)
Definition strptime (fs : list directive) (s : bytes) : option datetime :=
  match match_format fs s with
  | Some ([y; m; d], []) => new_datetime (number y) (number m) (number d) 0 0 0
  | Some ([y; m; d; h; mi; s], []) =>
      new_datetime (number y) (number m) (number d) (number h) (number mi) (number s)
  | _ => None
  end.
(** the date of an ARC record that is not empty, arc2warc.py:129-133 *)
Definition arc_record_date (s : bytes) : option datetime :=
  match strptime FORMAT14 s with
  | Some d => Some d
  | None => strptime FORMAT8 s
  end.
(** the date of a filedesc record that is not empty, arc2warc.py:89-93 *)
Definition arc_filedesc_date (s : bytes) : option datetime :=
  if Nat.leb 14 (List.length s) then strptime FORMAT14 (firstn 14 s)
  else strptime FORMAT8 (firstn 8 s).
