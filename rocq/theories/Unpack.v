(** warcunpack_ia.py: where the pages of an archive are written.  Texts are lists of code points. *)
From Verif Require Export Tools TextMode.
From Coq Require Import String List ZArith.
Open Scope list_scope.

Notation text := bytes (only parsing).
Definition SLASH : N := 47%N.
Definition DOT : N := 46%N.
Definition DOTS : text := [DOT; DOT].
Definition text_eqb (a b : text) : bool := bytes_eqb a b.

(** *** posixpath (trusted base: Python's os.path on POSIX) *)
(** s.split('/') *)
Fixpoint split_slash (s : text) : list text :=
  match s with
  | [] => [[]]
  | c :: t => if N.eqb c SLASH then [] :: split_slash t
              else match split_slash t with
                   | p :: ps => (c :: p) :: ps
                   | [] => [[c]]
                   end
  end.
Definition is_abs (p : text) : bool := startswith [SLASH] p.
Definition ends_slash (p : text) : bool := endswith [SLASH] p.
(** join(path, b) *)
Definition join_path (path b : text) : text :=
  if is_abs b then b
  else match path with
       | [] => b
       | _ => if ends_slash path then path ++ b else path ++ SLASH :: b
       end.
(** join(a, *p) *)
Definition join_paths (a : text) (p : list text) : text := fold_left join_path p a.
(** normpath: the slashes kept in front *)
Definition initial_slashes (p : text) : nat :=
  if is_abs p then if startswith [SLASH; SLASH] p && negb (startswith [SLASH; SLASH; SLASH] p) then 2 else 1 else 0.
(** one component; the components so far are kept last first *)
Definition norm_step (absolute : bool) (acc : list text) (c : text) : list text :=
  if text_eqb c [] || text_eqb c [DOT] then acc
  else if negb (text_eqb c DOTS) then c :: acc
  else match acc with
       | [] => if absolute then [] else [c]
       | t :: r => if text_eqb t DOTS then c :: acc else r
       end.
Definition normpath (p : text) : text :=
  match p with
  | [] => [DOT]
  | _ => let n := initial_slashes p in
         let comps := rev (fold_left (norm_step (Nat.ltb 0 n)) (split_slash p) []) in
         match repeat SLASH n ++ join [SLASH] comps with [] => [DOT] | r => r end
  end.
(** rfind of a character: the number of characters before its last occurrence, if any *)
Fixpoint rfind_from (c : N) (s : text) (i : nat) (best : option nat) : option nat :=
  match s with
  | [] => best
  | x :: t => rfind_from c t (S i) (if N.eqb x c then Some i else best)
  end.
Definition rfind (c : N) (s : text) : option nat := rfind_from c s 0 None.
(** splitext (genericpath._splitext): the last dot, unless only dots stand between it and the last slash *)
Definition splitext (p : text) : text * text :=
  match rfind DOT p with
  | None => (p, [])
  | Some d =>
      let start := match rfind SLASH p with Some i => S i | None => 0 end in
      if Nat.ltb d start then (p, [])
      else if existsb (fun c => negb (N.eqb c DOT)) (firstn (d - start) (skipn start p)) then (firstn d p, skipn d p)
      else (p, [])
  end.
(** basename *)
Definition basename (p : text) : text := match rfind SLASH p with Some i => skipn (S i) p | None => p end.
(** s[:n] *)
Definition upto (n : Z) (s : text) : text :=
  if Z.ltb n 0 then firstn (Z.to_nat (Z.of_nat (List.length s) + n)) s else firstn (Z.to_nat n) s.
(** s.replace('://', '/', 1) *)
Fixpoint replace_scheme (s : text) : text :=
  if startswith (B "://") s then SLASH :: skipn 3 s
  else match s with [] => [] | c :: t => c :: replace_scheme t end.

Section Unpack.
  (** c.isalpha() or c.isdigit(); mimetypes.guess_extension; os.path.realpath: the file a path means *)
  Variable alnum : N -> bool.
  Variable guess_extension : text -> option text.
  Variable realpath : text -> text.
  (** the k-th random identifier, str(uuid.uuid4())[:8] *)
  Variable fresh_id : nat -> text.
  (** the existing files and directories, by their real paths; os.makedirs *)
  Definition files : Type := list text.
  Variable makedirs : files -> text -> outcome files.
  Definition path_exists (fs : files) (p : text) : bool := existsb (text_eqb (realpath p)) fs.

  (** the characters kept, warcunpack_ia.py:169 *)
  Definition keep (c : N) : N :=
    if alnum c || existsb (N.eqb c) (B "_-/.") then c else 95%N.
  Definition clean_url (url : text) : text := map keep (replace_scheme url).
  (** directories and file name, lines 171-178 *)
  Definition url_dirs (url : text) : list text :=
    filter (fun d => negb (text_eqb d [])) (removelast (split_slash (clean_url url))).
  Definition url_file (url : text) : text := last (split_slash (clean_url url)) [].
  (** name and extension, lines 180-193.  mimetypes.guess_type gives a pair, which is never
      equal to the text mime_type: the extension is always looked up *)
  Definition name_ext (url : text) (mime : option text) (default_name : text) : text * text :=
    let '(name, ext) := match url_file url with [] => (default_name, []) | f => splitext f end in
    match mime with
    | Some ((_ :: _) as m) =>
        match guess_extension m with
        | Some ((_ :: _) as e) => (name, e)
        | _ => (name, ext)
        end
    | _ => (name, match ext with [] => B ".html" | _ => ext end)
    end.
  (** the directory, lines 195-196 *)
  Definition out_directory (output_dir url : text) : text :=
    firstn 200 (normpath (join_paths output_dir (url_dirs url))).
  Definition short_name (name ext : text) : text := upto (45 - Z.of_nat (List.length ext)) name.
  (** the loop, lines 205-213 *)
  Fixpoint unused (fuel k : nat) (fs : files) (directory name ext fullname : text) (collision : bool)
    : outcome (text * bool * nat) :=
    match fuel with
    | O => Diverge
    | S fuel' =>
        if path_exists fs fullname
        then unused fuel' (S k) fs directory name ext (join_path directory (short_name name ext ++ B "_R" ++ fresh_id k ++ ext)) true
        else Ret (fullname, collision, k)
    end.
  (** output_file, warcunpack_ia.py:168-215: the path, whether there was a collision, the files that exist
      afterwards and the number of identifiers used up *)
  Definition output_file (fuel k : nat) (fs : files) (output_dir url : text) (mime : option text) (default_name : text)
    : outcome (text * bool * files * nat) :=
    let '(name, ext) := name_ext url mime default_name in
    let directory := out_directory output_dir url in
    match (if path_exists fs directory then Ret fs else makedirs fs directory) with
    | Ret fs1 =>
        match unused fuel k fs1 directory name ext (join_path directory (short_name name ext ++ ext)) false with
        | Ret (fullname, collision, k') => Ret (realpath (normpath fullname), collision, fs1, k')
        | Raise e => Raise e
        | Diverge => Diverge
        end
    | Raise e => Raise e
    | Diverge => Diverge
    end.
  (** one page after the other: open(filename, 'wb') creates the file, lines 107-119 *)
  Fixpoint write_pages (fuel k : nat) (fs : files) (output_dir default_name : text) (pages : list (text * option text))
    : outcome (list text * files) :=
    match pages with
    | [] => Ret ([], fs)
    | (url, mime) :: rest =>
        match output_file fuel k fs output_dir url mime default_name with
        | Ret (p, _, fs1, k') =>
            match write_pages fuel k' (p :: fs1) output_dir default_name rest with
            | Ret (ps, fs2) => Ret (p :: ps, fs2)
            | Raise e => Raise e
            | Diverge => Diverge
            end
        | Raise e => Raise e
        | Diverge => Diverge
        end
    end.
End Unpack.

(** *** unpack_records, warcunpack_ia.py:81-130, on a stream of bytes.  The state is what was written (path and
    contents) and the number of collisions.  For every record the content is read (line 87); a warcinfo record has
    no effect on the files (its content is split with a text, which raises TypeError inside parse_warcinfo, where it is
    caught, lines 89-99, 132-145); for a response, content_type.startswith('application/http') with a text raises TypeError (AttributeError
    if there is no content type).  Exceptions are caught in the loop (lines 121-123). *)
Definition unpack_state : Type := list (text * bytes) * nat.
Definition bytes_startswith_text (content_type : option bytes) : outcome bool :=
  match content_type with Some _ => Raise ETypeError | None => Raise EAttributeError end.
Definition unpack_record (s : unpack_state) (st : stream) (r : record) : outcome unpack_state * stream :=
  match rec_content r st with
  | (Ret (ct, _), r', st') =>
      if is_some_eq (rec_type r') V_RESPONSE
      then match bytes_startswith_text ct with
           | Ret _ => (Ret s, st')        (* not reached *)
           | Raise e => (Raise e, st')
           | Diverge => (Diverge, st')
           end
      else (Ret s, st')
  | (Raise e, _, st') => (Raise e, st')
  | (Diverge, _, st') => (Diverge, st')
  end.
Definition unpack_body (s : unpack_state) (st : stream) (it : item) : outcome bool * unpack_state * stream :=
  match snd (fst it) with
  | Some r => match unpack_record s st r with
              | (Ret s', st') => (Ret true, s', st')
              | (Raise _, st') => (Ret true, s, st')
              | (Diverge, st') => (Diverge, s, st')
              end
  | None => (Ret true, s, st)
  end.
Definition unpack_records (st : stream) : outcome unit * unpack_state * stream :=
  for_read_records None true unpack_body ([], 0) st.

(** *** main, warcunpack_ia.py:42-78 (log_headers: 35-36).  A file opened with mode 'wb' is emptied; printing a text to it raises
    TypeError.  The result lists the index files emptied; [stdin] is how reading records from sys.stdin ends (see TextMode.v).
    Failures of open and os.makedirs are not modelled. *)
Definition print_to_binary : outcome unit := Raise ETypeError.
Definition index_name (output_dir filename : text) : text := join_path output_dir (basename filename ++ B ".index.txt").
Definition unpack_main (output_dir : text) (log : option text) (args : list text) (stdin : outcome unit) : outcome Z * list text :=
  match args with
  | [] => match log with
          | None => (omap (fun _ => 0%Z) stdin, [])
          | Some l => (bind print_to_binary (fun _ => omap (fun _ => 0%Z) stdin), [l])
          end
  | f :: _ =>
      let l := match log with Some l => l | None => index_name output_dir f end in
      (bind print_to_binary (fun _ => Ret 0%Z), [l])
  end.
(** the loop of unpack_records over the stream on sys.stdin, lines 57-58, 84 *)
Definition unpack_stdin {S A} (h : handle S) gz_line skip parse (fuel lines : nat)
    (body : A -> hstream -> item -> outcome bool * A * hstream) (a : A) (s : S) : outcome unit * A * hstream :=
  match stdin_open h gz_line (None, s) with
  | (Ret _, st) => h_records h skip parse fuel lines None true body a st
  | (Raise e, st) => (Raise e, a, st)
  | (Diverge, st) => (Diverge, a, st)
  end.
