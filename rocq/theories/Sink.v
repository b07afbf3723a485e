(** Writing records call by call, to an output whose write method may fail or is not a
    file at all: warc.py:76-127, record.py:167-185 and RecordStream.write,
    stream.py:104-106.  Without gzip; flush is taken to succeed. *)
From Verif Require Export Record.
From Coq Require Import String List.
Open Scope list_scope.

Section Sink.
  (** out.write(b): how it ended and the output's state afterwards *)
  Context {K : Type}.
  Variable put : K -> bytes -> outcome unit * K.

  Fixpoint put_all (k : K) (chunks : list bytes) : outcome unit * K :=
    match chunks with
    | [] => (Ret tt, k)
    | b :: t => match put k b with
                | (Ret _, k') => put_all k' t
                | (Raise e, k') => (Raise e, k')
                | (Diverge, k') => (Diverge, k')
                end
    end.
  (** warc.py:86-93: the calls for the version line and the headers *)
  Definition header_calls (nl : bytes) (kv : header) : list bytes := [fst kv; [58; 32]%N; snd kv; nl].
  Definition head_calls (version nl : bytes) (from_file : bool) (hs : list header) : list bytes :=
    [version; nl] ++ concat (map (header_calls nl) (filter (keeps_header from_file) hs)).
  (** warc.py:97-100 *)
  Fixpoint copy_calls (fuel : nat) (c : cfile) (st : stream) (k : K)
    : outcome unit * cfile * stream * K :=
    match fuel with
    | O => (Diverge, c, st, k)
    | S fuel' =>
        match cf_read c st (Z.to_nat CHUNK_SIZE) with
        | (Ret [], c', st') => (Ret tt, c', st', k)
        | (Ret buf, c', st') =>
            match put k buf with
            | (Ret _, k') => copy_calls fuel' c' st' k'
            | (Raise e, k') => (Raise e, c', st', k')
            | (Diverge, k') => (Diverge, c', st', k')
            end
        | (Raise e, c', st') => (Raise e, c', st', k)
        | (Diverge, c', st') => (Diverge, c', st', k)
        end
    end.
  (** warc.py:101-122: the calls for a (type, bytes) pair *)
  Definition content_calls (nl : bytes) (ct buf : option bytes) : list bytes :=
    (if truthy ct then [CONTENT_TYPE; [58; 32]%N; or_empty ct; nl] else []) ++
    [CONTENT_LENGTH; [58; 32]%N; dec_nat (List.length (or_empty buf)); nl; nl] ++
    (if truthy buf then [or_empty buf] else []).
  (** WarcRecord._write_to, warc.py:76-127 *)
  Definition warc_calls (version nl : bytes) (r : record) (st : stream) (k : K)
    : outcome unit * record * stream * K :=
    match put_all k (head_calls version nl (has_cf r) (r_headers r)) with
    | (Ret _, k1) =>
        if has_cf r then
          match put_all k1 [nl] with
          | (Ret _, k2) =>
              match copy_calls (cf_fuel (r_cf r) st) (r_cf r) st k2 with
              | (o, c', st', k3) =>
                  let r' := with_valid (with_cf r c') (r_valid r) in
                  match o with
                  | Ret _ => let '(o', k4) := put_all k3 [nl; nl] in (o', r', st', k4)
                  | Raise e => (Raise e, r', st', k3)
                  | Diverge => (Diverge, r', st', k3)
                  end
              end
          | (Raise e, k2) => (Raise e, r, st, k2)
          | (Diverge, k2) => (Diverge, r, st, k2)
          end
        else
          match rec_content r st with
          | (Ret (ct, buf), r', st') =>
              let '(o, k2) := put_all k1 (content_calls nl ct buf ++ [nl; nl]) in (o, r', st', k2)
          | (Raise e, r', st') => (Raise e, r', st', k1)
          | (Diverge, r', st') => (Diverge, r', st', k1)
          end
    | (Raise e, k1) => (Raise e, r, st, k1)
    | (Diverge, k1) => (Diverge, r, st, k1)
    end.
  (** record.write_to(out, newline), record.py:167-185 *)
  Definition write_calls (nl : bytes) (r : record) (st : stream) (k : K)
    : outcome unit * record * stream * K :=
    match r_cf r with
    | CF_unset => (Raise EAttributeError, r, st, k)
    | _ =>
      if has_cf r && negb (r_valid r) then (Raise E_used, r, st, k)
      else
        match r_class r with
        | RWarc v =>
            match warc_calls v nl r st k with
            | (Ret _, r', st', k') => (Ret tt, if has_cf r' then with_valid r' false else r', st', k')
            | x => x
            end
        | _ => (Ret tt, if has_cf r then with_valid r false else r, st, k)
        end
    end.
End Sink.

(** an output that takes everything *)
Definition put_file (k : bytes) (b : bytes) : outcome unit * bytes := (Ret tt, k ++ b).
(** an output with room for so many more bytes: the call that does not fit stores what
    fits and raises OSError (a full disk) *)
Definition put_full (k : bytes * nat) (b : bytes) : outcome unit * (bytes * nat) :=
  let '(stored, room) := k in
  if Nat.leb (List.length b) room then (Ret tt, (stored ++ b, room - List.length b))
  else (Raise EOSError, (stored ++ firstn room b, 0)).

(** RecordStream.write(x), stream.py:104-106, for what a caller can pass: a record or a byte
    string.  A record is told to write itself to the stream; a byte string has no
    write_to.  The stream's file is not touched by it. *)
Inductive writable : Type := WRecord (r : record) | WBytes (b : bytes).
Definition stream_put (st : stream) (b : bytes) : outcome unit * stream := (Raise EAttributeError, st).
Definition stream_write_to (st : stream) (x : writable) : outcome unit * stream :=
  match x with
  | WBytes b => stream_put st b
  | WRecord r => match write_calls stream_put CRLF r st st with (o, _, _, st') => (o, st') end
  end.
