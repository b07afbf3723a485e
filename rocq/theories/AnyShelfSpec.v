(** What kept records are to their caller when the file is any file at all. *)
From Verif Require Export ShelfSpec PropsMixedAny.
From Coq Require Import String List ZArith.
Open Scope list_scope.

(** the reader for WARC, for ARC, for both *)
Inductive kind_of_reader : Type := ForWarc | ForArc | ForMixed.
(** what it finds in the text ahead (the field names in force are those of the last
    filedesc record): see PropsMixedAny.v and, for WARC, C71 *)
Inductive look (w : kind_of_reader) (names : list bytes) (text : bytes) : found -> list bytes -> Prop :=
| look_warc f : w = ForWarc -> warc_finds text f -> look w names text f names
| look_arc f names' : w = ForArc -> finds false names text f names' -> look w names text f names'
| look_mixed f names' : w = ForMixed -> finds true names text f names' -> look w names text f names'.

(** How the file stands after a record. *)
Inductive stage : Type :=
| Within (left : bytes) (after : option bytes)  (* its declared length is not used up: what is left of its payload, and the text behind it; None: the file is too short *)
| Open (left : bytes)                           (* no length is known, or no record was found: what is left of the file *)
| Negative (text : bytes)                       (* it declares a negative length: the text behind its head *)
| Lost.                                         (* an exception was raised elsewhere: nothing is said from here on *)
Definition stage_after (len : option Z) (more : bytes) : stage :=
  match len with
  | None => Open more
  | Some d => if (d <? 0)%Z then Negative more
              else if (d <=? Z.of_nat (List.length more))%Z then Within (firstn (Z.to_nat d) more) (Some (skipn (Z.to_nat d) more))
              else Within more None
  end.
Definition gave_up (errs : list perr) : bool := match last errs (ErrIgnored []) with ErrTooMany => true | _ => false end.
(** where the next record is looked for *)
Definition ahead (s : stage) : option bytes :=
  match s with Within _ (Some t) => Some t | Open t => Some t | Negative t => Some t | _ => None end.

(** The caller's table: the records read so far, how the file stands, the names in force. *)
Record table : Type := mktab { t_recs : list kept_rec; t_stage : stage; t_names : list bytes }.
Definition kept_of (r : record) : kept_rec := mkk (r_class r) (r_headers r) None (Some (Shared, false)).
(** what the shared content file has to give, and the stage when it has less *)
Definition in_file (s : stage) : option (bytes * (bytes -> stage)) :=
  match s with Within l after => Some (l, fun l' => Within l' after) | Open l => Some (l, Open) | _ => None end.
(** [size]: where the file ends *)
Inductive deals (w : kind_of_reader) (gz : bool) (size : nat) : table -> sop -> outcome sval * bytes -> table -> Prop :=
| G_record t text n r len more names' : ahead (t_stage t) = Some text -> look w (t_names t) text (FRec n r len more) names' ->
    deals w gz size t Next (Ret (VItem (shown gz (size - List.length text + n), Some r, [])), []) (mktab (t_recs t ++ [kept_of r]) (stage_after len more) names')
| G_none t text n errs names' : ahead (t_stage t) = Some text -> look w (t_names t) text (FNone n errs) names' ->
    deals w gz size t Next (Ret (VItem (shown gz (size - List.length text + n), None, errs)), []) (mktab (t_recs t) (Open (if gave_up errs then skipn n text else [])) names')
| G_exn t text e names' : ahead (t_stage t) = Some text -> look w (t_names t) text (FExn e) names' ->
    deals w gz size t Next (Raise e, []) (mktab (t_recs t) Lost names')
| G_hang t text names' : ahead (t_stage t) = Some text -> look w (t_names t) text FHang names' ->
    deals w gz size t Next (Diverge, []) (mktab (t_recs t) Lost names')
| G_short t left : t_stage t = Within left None ->
    deals w gz size t Next (Raise E_short, []) (mktab (t_recs t) (Within [] None) (t_names t))
| G_call t i op k x out taken o : nth_error (t_recs t) i = Some k -> shares k = false -> does (viewed [] k) op x out taken o ->
    deals w gz size t (On i op) (omap VCall x, out) (mktab (put (t_recs t) i (again k op o)) (t_stage t) (t_names t))
| G_shared t i op k x out taken o left stg left' : nth_error (t_recs t) i = Some k -> shares k = true -> in_file (t_stage t) = Some (left, stg) ->
    does (viewed left k) op x out taken o -> left = taken ++ left' -> (forall n, op = ReadFile (Some n) -> taken = firstn n left) ->
    deals w gz size t (On i op) (omap VCall x, out) (mktab (put (t_recs t) i (again k op o)) (stg left') (t_names t))
| G_negative t i op k text x recs : nth_error (t_recs t) i = Some k -> shares k = true -> t_stage t = Negative text ->
    deals w gz size t (On i op) x (mktab recs Lost (t_names t))
| G_no_such t i op : nth_error (t_recs t) i = None -> deals w gz size t (On i op) (Ret VNoSuch, []) t.
Inductive follows (w : kind_of_reader) (gz : bool) (size : nat) : table -> list sop -> list (outcome sval * bytes) -> Prop :=
| Fo_nil t : follows w gz size t [] []
| Fo_cons t op x t1 ops xs : deals w gz size t op x t1 -> fst x <> Diverge -> follows w gz size t1 ops xs -> follows w gz size t (op :: ops) (x :: xs)
| Fo_hang t op out t1 ops : deals w gz size t op (Diverge, out) t1 -> follows w gz size t (op :: ops) [(Diverge, out)]
| Fo_lost t ops xs : t_stage t = Lost -> follows w gz size t ops xs.

(** ** Reading on when every record so far has a length *)
(** [steady ... text items]: what a loop over the records that does nothing else gives -
    items, and with them what there is of the record's payload - as long as every record
    declares a length that is not negative.  [None]: the payload before is cut short. *)
Inductive steady (w : kind_of_reader) (gz : bool) (size : nat) : list bytes -> option bytes -> list (outcome item * bytes) -> Prop :=
| St_nil names text : steady w gz size names text []
| St_record names text n r d more names' items : look w names text (FRec n r (Some d) more) names' -> (0 <= d)%Z ->
    steady w gz size names' (if (d <=? Z.of_nat (List.length more))%Z then Some (skipn (Z.to_nat d) more) else None) items ->
    steady w gz size names (Some text) ((Ret (shown gz (size - List.length text + n), Some r, []), firstn (Z.to_nat d) more) :: items)
| St_end names text n errs names' items : look w names text (FNone n errs) names' -> gave_up errs = false ->
    steady w gz size names' (Some []) items ->
    steady w gz size names (Some text) ((Ret (shown gz (size - List.length text + n), None, errs), []) :: items)
| St_short names items : steady w gz size names None items -> steady w gz size names None ((Raise E_short, []) :: items).
(** a reader between two records *)
Definition poised (w : kind_of_reader) (gz : bool) (st : stream) (pos : nat) (text : bytes) (names : list bytes) : Prop :=
  s_kind st = (if gz then SGzipRecord else SPlain) /\
  match w with ForWarc => s_parser st = PWarc | ForArc => exists a, s_parser st = PArc a /\ a_headers a = names | ForMixed => exists a, s_parser st = PMixed a /\ a_headers a = names end /\
  s_eoc st = None /\ f_pos (s_fh st) = pos /\ f_rest (s_fh st) = text /\ Forall plain_value names.
