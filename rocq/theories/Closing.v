(** A stream that is closed, and the records read from it that the caller kept: hanzo/warctools/stream.py:108-110,
    record.py:62-185.  After close() every call on the file raises ValueError ("I/O operation on closed file"; so do
    CPython's files, BytesIO and GzipFile, whatever is asked for).  The functions of Record.v and Life.v are given once
    more over the streams of Faults.v, whose files may raise; PropsClosing.v proves that over a file that does not fail
    they are the same. *)
From Verif Require Export Faults Shelf.
From Coq Require Import String List.
Open Scope list_scope.

Section Rec.
  Context {F : Type}.
  Variable ops : fops F.
  Variable budget : nat.
  Notation fs := (fstream F).
  (** record.content, record.py:89-102 *)
  Definition xr_content (r : record) (st : fs) : outcome (option bytes * option bytes) * record * fs :=
    match r_content r with
    | Some c => (Ret c, r, st)
    | None =>
        let ct := get_header r (ct_name r) in
        match r_cf r with
        | CF_unset | CF_none => (Raise EAttributeError, with_cf r CF_none, st)
        | CF_stream =>
            match x_read ops st None with
            | (Ret d, st') => (Ret (ct, Some d), with_cf (with_content r (ct, Some d)) CF_none, st')
            | (Raise e, st') => (Raise e, with_cf r CF_none, st')
            | (Diverge, st') => (Diverge, with_cf r CF_none, st')
            end
        | CF_own rd => let c := (ct, Some (rd_read_all rd)) in (Ret c, with_cf (with_content r c) CF_none, st)
        end
    end.
  (** record.content_type, record.py:104-114 *)
  Definition xr_type (r : record) (st : fs) : outcome (option bytes) * record * fs :=
    let slow := let '(o, r', st') := xr_content r st in (omap fst o, r', st') in
    match r_content r with
    | None => match get_header r (ct_name r) with Some ct => (Ret (Some ct), r, st) | None => slow end
    | Some _ => slow
    end.
  (** record.content_length, record.py:116-126 *)
  Definition xr_length (r : record) (st : fs) : outcome Z * record * fs :=
    let slow := let '(o, r', st') := xr_content r st in
                (bind o (fun c => match snd c with Some d => Ret (Z.of_nat (List.length d)) | None => Raise ETypeError end), r', st') in
    match r_content r with
    | None => match get_header r (cl_name r) with
              | Some cl => (match py_int 10 cl with Some n => Ret n | None => Raise EValueError end, r, st)
              | None => slow
              end
    | Some _ => slow
    end.
  (** content_file.read(n), content_file.read() *)
  Definition xr_file (c : cfile) (st : fs) (lim : option nat) : outcome bytes * cfile * fs :=
    match c with
    | CF_stream => let '(o, st') := x_read ops st (option_map Z.of_nat lim) in (o, c, st')
    | CF_own rd => match lim with
                   | Some n => let '(d, rd') := rd_read rd n in (Ret d, CF_own rd', st)
                   | None => (Ret (rd_read_all rd), CF_own [], st)
                   end
    | CF_none | CF_unset => (Raise EAttributeError, c, st)
    end.
  (** the copy loop, warc.py:97-100 *)
  Fixpoint xr_copy (fuel : nat) (c : cfile) (st : fs) (out : bytes) : outcome unit * cfile * fs * bytes :=
    match fuel with
    | O => (Diverge, c, st, out)
    | S fuel' =>
        match xr_file c st (Some (Z.to_nat CHUNK_SIZE)) with
        | (Ret [], c', st') => (Ret tt, c', st', out)
        | (Ret buf, c', st') => xr_copy fuel' c' st' (out ++ buf)
        | (Raise e, c', st') => (Raise e, c', st', out)
        | (Diverge, c', st') => (Diverge, c', st', out)
        end
    end.
  (** WarcRecord._write_to, warc.py:76-127 *)
  Definition xr_warc_write (version nl : bytes) (r : record) (st : fs) : outcome unit * record * fs * bytes :=
    let out1 := version ++ nl ++ write_headers (has_cf r) nl (r_headers r) in
    if has_cf r then
      let fuel := match r_cf r with CF_own rd => S (List.length (concat rd) + List.length rd) | _ => budget end in
      match xr_copy fuel (r_cf r) st (out1 ++ nl) with
      | (Ret _, c', st', out2) => (Ret tt, with_valid (with_cf r c') (r_valid r), st', out2 ++ nl ++ nl)
      | (Raise e, c', st', out2) => (Raise e, with_valid (with_cf r c') (r_valid r), st', out2)
      | (Diverge, c', st', out2) => (Diverge, with_valid (with_cf r c') (r_valid r), st', out2)
      end
    else
      match xr_content r st with
      | (Ret (ct, buf), r', st') =>
          let out2 := if truthy ct then CONTENT_TYPE ++ [58; 32]%N ++ or_empty ct ++ nl else [] in
          let body := or_empty buf in
          let out3 := CONTENT_LENGTH ++ [58; 32]%N ++ dec_nat (List.length body) ++ nl in
          (Ret tt, r', st', out1 ++ out2 ++ out3 ++ nl ++ body ++ nl ++ nl)
      | (Raise e, r', st') => (Raise e, r', st', out1)
      | (Diverge, r', st') => (Diverge, r', st', out1)
      end.
  (** record.write_to, record.py:167-185; ARC records write nothing, arc.py:38-40 *)
  Definition xr_write_to (gz : option gzipper) (nl : bytes) (r : record) (st : fs) : outcome unit * record * fs * bytes :=
    match r_cf r with
    | CF_unset => (Raise EAttributeError, r, st, [])
    | _ =>
      if has_cf r && negb (r_valid r) then (Raise E_used, r, st, [])
      else
        match match r_class r with RWarc v => xr_warc_write v nl r st | _ => (Ret tt, r, st, []) end with
        | (Ret _, r', st', out) =>
            (Ret tt, if has_cf r' then with_valid r' false else r', st', match gz with None => out | Some deflate => deflate out end)
        | (Raise e, r', st', out) => (Raise e, r', st', match gz with None => out | Some g => torn g out end)
        | (Diverge, r', st', out) => (Diverge, r', st', match gz with None => out | Some g => torn g out end)
        end
    end.
  (** one call on a record; see [rec_do] in Life.v *)
  Definition xr_do (r : record) (st : fs) (o : rop) : outcome val * bytes * record * fs :=
    match o with
    | AskContent => let '(x, r', st') := xr_content r st in (omap VContent x, [], r', st')
    | AskType => let '(x, r', st') := xr_type r st in (omap VType x, [], r', st')
    | AskLength => let '(x, r', st') := xr_length r st in (omap VLength x, [], r', st')
    | AskHeader n => (Ret (VHeader (get_header r n)), [], r, st)
    | SetHeader n v => (Ret VNone, [], set_header r n v, st)
    | ReadFile lim => let '(x, c', st') := xr_file (r_cf r) st lim in (omap VBytes x, [], with_valid (with_cf r c') (r_valid r), st')
    | AssignFile f => (Ret VNone, [], with_cf r (match f with Some rd => CF_own rd | None => CF_none end), st)
    | Write gz nl => let '(x, r', st', out) := xr_write_to gz nl r st in (omap (fun _ => VNone) x, out, r', st')
    end.
  (** one step with the stream and the records read from it; see [shelf_do] in Shelf.v *)
  Definition xr_step (recs : list record) (st : fs) (o : sop) : outcome sval * bytes * (list record * fs) :=
    match o with
    | Next =>
        let '(x, st') := x_read_record ops budget st true in
        (omap VItem x, [], (recs ++ match x with Ret (_, Some r, _) => [r] | _ => [] end, st'))
    | On i op =>
        match nth_error recs i with
        | None => (Ret VNoSuch, [], (recs, st))
        | Some r => let '(x, out, r', st') := xr_do r st op in (omap VCall x, out, (put recs i r', st'))
        end
    end.
End Rec.

(** a closed file: every call raises ValueError *)
Definition shut_ops : fops unit := mkfops unit
  (fun f _ => (Raise EValueError, f)) (fun f => (Raise EValueError, f)) (fun f => (Raise EValueError, f))
  (fun f _ => (Raise EValueError, f)) (fun f => (Raise EValueError, f)).

(** The stream, open or closed, and the records read from it.  [Shut]: of the closed stream only the attributes
    are left (any loop over it ends at its first call, so one iteration is enough). *)
Inductive desktop : Type := Open (s : shelf) | Shut (recs : list record) (st : fstream unit).
(** [CloseIt]: stream.close().  [CloseFile i]: record.content_file.close() on the i-th record read, which is the same
    call if its content file is the stream (record.py:62-72).  (Closing a file the caller has assigned is not modelled: it
    is taken as having no effect.) *)
Inductive dop : Type := Do (o : sop) | CloseIt | CloseFile (i : nat).
Definition recs_of (d : desktop) : list record := match d with Open s => sh_recs s | Shut recs _ => recs end.
(** RecordStream.close, stream.py:108-110; closing twice is allowed *)
Definition shut (d : desktop) : desktop :=
  match d with
  | Open s => Shut (sh_recs s) (mkfst (s_kind (sh_st s)) tt (s_eoc (sh_st s)) (s_parser (sh_st s)))
  | Shut _ _ => d
  end.
Definition d_do (d : desktop) (o : dop) : outcome sval * bytes * desktop :=
  match o with
  | CloseIt => (Ret (VCall VNone), [], shut d)
  | CloseFile i =>
      match nth_error (recs_of d) i with
      | None => (Ret VNoSuch, [], d)
      | Some r => match r_cf r with
                  | CF_stream => (Ret (VCall VNone), [], shut d)
                  | CF_own _ => (Ret (VCall VNone), [], d)
                  | CF_none | CF_unset => (Raise EAttributeError, [], d)
                  end
      end
  | Do o =>
      match d with
      | Open s => let '(x, out, s') := shelf_do s o in (x, out, Open s')
      | Shut recs st => let '(x, out, (recs', st')) := xr_step shut_ops 1 recs st o in (x, out, Shut recs' st')
      end
  end.
(** any history (a call that does not end is the last one) *)
Fixpoint d_run (d : desktop) (ops : list dop) : list (outcome sval * bytes) * desktop :=
  match ops with
  | [] => ([], d)
  | o :: t =>
      match d_do d o with
      | (Diverge, out, d') => ([(Diverge, out)], d')
      | (x, out, d') => let '(xs, d'') := d_run d' t in ((x, out) :: xs, d'')
      end
  end.
