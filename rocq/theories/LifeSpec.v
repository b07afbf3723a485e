(** What a record object is to its caller, and what each call does to it. *)
From Verif Require Export Life WarcSpec.
From Coq Require Import String List.
Open Scope list_scope.

(** A record: its class, its headers, its content as far as it is known (a pair of type
    and data), and its content file as far as there is one: what is left in it, and whether
    the record has been written from it. *)
Record obj : Type := mkobj {
  o_class : rclass;
  o_headers : list header;
  o_known : option (option bytes * option bytes);
  o_file : option (bytes * bool) }.
Definition knowing (o : obj) c : obj := mkobj (o_class o) (o_headers o) (Some c) None.
Definition left_with (o : obj) f : obj := mkobj (o_class o) (o_headers o) (o_known o) f.
Definition headed (o : obj) hs : obj := mkobj (o_class o) hs (o_known o) (o_file o).
(** the header that holds the type (the length), by the kind of record *)
Definition warc (o : obj) : bool := match o_class o with RWarc _ => true | _ => false end.
Definition type_header (o : obj) : option bytes := first_header (B (if warc o then "Content-Type" else "Content-type")) (o_headers o).
Definition length_header (o : obj) : option bytes := first_header (B (if warc o then "Content-Length" else "Archive-length")) (o_headers o).

(** Fetching the content: the result, what was taken from the content file, the record then *)
Inductive fetches : obj -> outcome (option bytes * option bytes) -> bytes -> obj -> Prop :=
| F_known o c : o_known o = Some c -> fetches o (Ret c) [] o
| F_file o left u : o_known o = None -> o_file o = Some (left, u) ->
    fetches o (Ret (type_header o, Some left)) left (knowing o (type_header o, Some left))
| F_nothing o : o_known o = None -> o_file o = None -> fetches o (Raise EAttributeError) [] o.

(** the text of a record *)
Definition lines (nl : bytes) (hs : list header) : bytes := concat (map (fun h => fst h ++ B ": " ++ snd h ++ nl) hs).
Definition others (hs : list header) : list header :=
  filter (fun h => negb (bytes_eqb (fst h) (B "Content-Type") || bytes_eqb (fst h) (B "Content-Length"))) hs.
Definition file_text (v nl : bytes) (hs : list header) (body : bytes) : bytes := v ++ nl ++ lines nl hs ++ nl ++ body ++ nl ++ nl.
Definition known_text (v nl : bytes) (hs : list header) (ct body : option bytes) : bytes :=
  let data := match body with Some d => d | None => [] end in
  v ++ nl ++ lines nl (others hs) ++ (match ct with Some (c :: t) => B "Content-Type: " ++ (c :: t) ++ nl | _ => [] end) ++
  (B "Content-Length: " ++ dec_nat (List.length data) ++ nl) ++ nl ++ data ++ nl ++ nl.
Definition packed (gz : option gzipper) (text : bytes) : bytes := match gz with None => text | Some g => member g text end.
Definition torn_off (gz : option gzipper) (text : bytes) : bytes := match gz with None => text | Some g => torn g text end.

(** One call: its result, what it wrote, what it took from the content file, the record then *)
Inductive does : obj -> rop -> outcome val -> bytes -> bytes -> obj -> Prop :=
| D_content o x t o' : fetches o x t o' -> does o AskContent (omap VContent x) [] t o'
(* type and length: from the headers while the content is not known *)
| D_type_header o ct : o_known o = None -> type_header o = Some ct -> does o AskType (Ret (VType (Some ct))) [] [] o
| D_type o x t o' : (o_known o = None -> type_header o = None) -> fetches o x t o' ->
    does o AskType (omap (fun c => VType (fst c)) x) [] t o'
| D_length_header o l n : o_known o = None -> length_header o = Some l -> py_int 10 l = Some n -> does o AskLength (Ret (VLength n)) [] [] o
| D_length_bad o l : o_known o = None -> length_header o = Some l -> py_int 10 l = None -> does o AskLength (Raise EValueError) [] [] o
| D_length o c d t o' : (o_known o = None -> length_header o = None) -> fetches o (Ret (c, Some d)) t o' ->
    does o AskLength (Ret (VLength (Z.of_nat (List.length d)))) [] t o'
| D_length_none o c t o' : (o_known o = None -> length_header o = None) -> fetches o (Ret (c, None)) t o' ->
    does o AskLength (Raise ETypeError) [] t o'
| D_length_raise o e t o' : (o_known o = None -> length_header o = None) -> fetches o (Raise e) t o' -> does o AskLength (Raise e) [] t o'
(* headers *)
| D_header o n : does o (AskHeader n) (Ret (VHeader (first_header n (o_headers o)))) [] [] o
| D_set o n v : does o (SetHeader n v) (Ret VNone) [] [] (headed o (filter (fun h => negb (bytes_eqb (fst h) n)) (o_headers o) ++ [(n, v)]))
(* the content file: a read may give less than was asked for, but not nothing before the end *)
| D_read o n got left u : o_file o = Some (got ++ left, u) -> List.length got <= n -> (got = [] -> n = 0 \/ left = []) ->
    does o (ReadFile (Some n)) (Ret (VBytes got)) [] got (left_with o (Some (left, u)))
| D_read_all o left u : o_file o = Some (left, u) -> does o (ReadFile None) (Ret (VBytes left)) [] left (left_with o (Some ([], u)))
| D_read_none o n : o_file o = None -> does o (ReadFile n) (Raise EAttributeError) [] [] o
| D_assign o rd : does o (AssignFile (Some rd)) (Ret VNone) [] [] (left_with o (Some (concat rd, false)))
| D_unassign o : does o (AssignFile None) (Ret VNone) [] [] (left_with o None)
(* writing *)
| D_used o gz nl left : o_file o = Some (left, true) -> does o (Write gz nl) (Raise E_used) [] [] o
| D_write_file o gz nl v left : o_class o = RWarc v -> o_file o = Some (left, false) ->
    does o (Write gz nl) (Ret VNone) (packed gz (file_text v nl (o_headers o) left)) left (left_with o (Some ([], true)))
| D_write_known o gz nl v ct body : o_class o = RWarc v -> o_file o = None -> o_known o = Some (ct, body) ->
    does o (Write gz nl) (Ret VNone) (packed gz (known_text v nl (o_headers o) ct body)) [] o
| D_write_nothing o gz nl v : o_class o = RWarc v -> o_file o = None -> o_known o = None ->
    does o (Write gz nl) (Raise EAttributeError) (torn_off gz (v ++ nl ++ lines nl (others (o_headers o)))) [] o
(* ARC records write nothing, but count as written *)
| D_write_arc_file o gz nl left : warc o = false -> o_file o = Some (left, false) ->
    does o (Write gz nl) (Ret VNone) (packed gz []) [] (left_with o (Some (left, true)))
| D_write_arc o gz nl : warc o = false -> o_file o = None -> does o (Write gz nl) (Ret VNone) (packed gz []) [] o.

(** a history *)
Inductive lives : obj -> list rop -> list (outcome val * bytes) -> list bytes -> obj -> Prop :=
| L_nil o : lives o [] [] [] o
| L_cons o op x w t o1 ops xs ts o2 : does o op x w t o1 -> lives o1 ops xs ts o2 -> lives o (op :: ops) ((x, w) :: xs) (t :: ts) o2.
