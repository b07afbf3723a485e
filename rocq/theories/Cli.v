(** The arguments of warcindex, warcextract and warcpayload: hanzo/warcindex.py:24-60, hanzo/warcextract.py:25-51,
    hanzo/warcpayload.py:22-36.  Arguments are what optparse leaves as positional arguments (an argument that starts with - is
    an option and not modelled); texts are modelled as their UTF-8 bytes, so that int() of a text is that of its bytes (not
    modelled: digits and white space outside ASCII). *)
From Verif Require Export Tools.
From Coq Require Import String List ZArith.
Open Scope list_scope.

(** s.rsplit(sep, 1) for a one-byte separator: at the last one *)
Fixpoint rsplit_once (sep : N) (s : bytes) : option (bytes * bytes) :=
  match s with
  | [] => None
  | c :: t => match rsplit_once sep t with
              | Some (a, b) => Some (c :: a, b)
              | None => if N.eqb c sep then Some ([], t) else None
              end
  end.
(** int(text) *)
Definition int_arg (t : bytes) : outcome Z := match py_int 10 t with Some z => Ret z | None => Raise EValueError end.
(** the argument of warcpayload, warcpayload.py:25-30 *)
Definition payload_arg (arg : bytes) : outcome (bytes * Z * option Z) :=
  match rsplit_once COLON arg with
  | None => Raise EValueError
  | Some (name, place) =>
      match split_once 44 place with
      | Some (a, b) => bind (int_arg a) (fun o => bind (int_arg b) (fun l => Ret (name, o, Some l)))
      | None => bind (int_arg place) (fun o => Ret (name, o, None))
      end
  end.

Section Cli.
  (** oracles: decompression, the HTTP client (see Tools.v); the local files by name; runs on s3:// names (S3.v has the
      requests they make) and on standard input (TextMode.v) *)
  Variable gunzip : bytes -> bytes.
  Variable client : bytes -> outcome bytes.
  Variable files : bytes -> option bytes.
  Variable far : bytes -> Z -> option Z -> outcome unit * bytes.
  Variable from_stdin : outcome unit * bytes.

  (** open(name, 'rb'), stream.py:15-21; a file that is not there raises FileNotFoundError *)
  Definition with_file (name : bytes) (o : Z) (l : option Z) (run : input -> outcome unit * bytes) : outcome unit * bytes :=
    if startswith (B "s3://") name then far name o l
    else match files name with Some d => run (mkin name d) | None => (Raise EOSError, []) end.
  (** warcpayload.py:22-36 *)
  Definition payload_main (args : list bytes) : outcome unit * bytes :=
    match args with
    | [] => (Raise EIndexError, [])
    | arg :: _ =>
        match payload_arg arg with
        | Ret (name, o, l) => with_file name o l (fun i => warcpayload gunzip client i o)
        | Raise e => (Raise e, [])
        | Diverge => (Diverge, [])
        end
    end.
  (** warcextract.py:25-51 *)
  Definition extract_main (args : list bytes) : outcome unit * bytes :=
    match args with
    | [] => from_stdin
    | name :: rest =>
        match (match rest with [] => Ret 0%Z | o :: _ => int_arg o end) with
        | Ret o => with_file name o None (fun i => warcextract gunzip i o)
        | Raise e => (Raise e, [])
        | Diverge => (Diverge, [])
        end
    end.
  (** the files up to the first one that is not there *)
  Fixpoint found_files (names : list bytes) : list input * bool :=
    match names with
    | [] => ([], true)
    | n :: t => match files n with
                | Some d => let '(l, all) := found_files t in (mkin n d :: l, all)
                | None => ([], false)
                end
    end.
  (** warcindex.py:24-60: the exit status (2: parser.error) or exception, and standard output.  Local files only. *)
  Definition index_main (names : list bytes) : outcome Z * bytes :=
    match names with
    | [] => (Ret 2%Z, [])
    | _ => let '(l, all) := found_files names in
           match warcindex gunzip l with
           | (Ret _, out) => (if all then Ret 0%Z else Raise EOSError, out)
           | (Raise e, out) => (Raise e, out)
           | (Diverge, out) => (Diverge, out)
           end
    end.
End Cli.
