(** warcfilter and warcindex over a file whose calls may fail (see Faults.v): the definitions of Tools.v and Record.v once more, over such a file, citing
    the same lines.  (PropsCutTools.v proves that they do the same as those, up to the first failure.) *)
From Verif Require Export Faults.
From Coq Require Import String List ZArith.
Open Scope list_scope.

(** a step on a record, then the rest: an exception ends it, what was written stays *)
Definition after_step {A C S} (x : outcome A * record * S) (out : bytes) (k : A -> record -> S -> outcome C * bytes * S) : outcome C * bytes * S :=
  match x with
  | (Ret a, r, s) => k a r s
  | (Raise e, _, s) => (Raise e, out, s)
  | (Diverge, _, s) => (Diverge, out, s)
  end.
(** the stream a record held in memory is written with: it is not asked *)
Definition nowhere : stream := new_stream SPlain (mkfile [] 0 true) PWarc.
Section FaultyTools.
  Context {F : Type} (ops : fops F) (budget : nat).
  Notation fs := (fstream F).
  (** ArchiveRecord.content, record.py:89-102 *)
  Definition x_rec_content (r : record) (st : fs) : outcome (option bytes * option bytes) * record * fs :=
    match r_content r with
    | Some c => (Ret c, r, st)
    | None =>
        let ct := get_header r (ct_name r) in
        match r_cf r with
        | CF_unset | CF_none => (Raise EAttributeError, with_cf r CF_none, st)
        | CF_stream =>
            match x_read ops st None with
            | (Ret d, st') => let c := (ct, Some d) in (Ret c, with_cf (with_content r c) CF_none, st')
            | (Raise e, st') => (Raise e, with_cf r CF_none, st')
            | (Diverge, st') => (Diverge, with_cf r CF_none, st')
            end
        | CF_own rd => let c := (ct, Some (rd_read_all rd)) in (Ret c, with_cf (with_content r c) CF_none, st)
        end
    end.
  (** ArchiveRecord.content_type, record.py:104-114 *)
  Definition x_rec_content_type (r : record) (st : fs) : outcome (option bytes) * record * fs :=
    let slow := match x_rec_content r st with (o, r', st') => (omap fst o, r', st') end in
    match r_content r with
    | None => match get_header r (ct_name r) with Some ct => (Ret (Some ct), r, st) | None => slow end
    | Some _ => slow
    end.
  (** ArchiveRecord.content_length, record.py:116-126 *)
  Definition x_rec_content_length (r : record) (st : fs) : outcome Z * record * fs :=
    let slow := match x_rec_content r st with
                | (o, r', st') => (bind o (fun c => match snd c with Some d => Ret (Z.of_nat (List.length d)) | None => Raise ETypeError end), r', st')
                end in
    match r_content r with
    | None => match get_header r (cl_name r) with
              | Some cl => (match py_int 10 cl with Some n => Ret n | None => Raise EValueError end, r, st)
              | None => slow
              end
    | Some _ => slow
    end.
  (** record.write_to(out) if the record is wanted: a record just read is copied from the stream, one whose content is held is written from memory *)
  Definition x_emit_if (b : bool) (out : bytes) (st : fs) (r : record) : outcome unit * bytes * fs :=
    if b then
      match r_content r with
      | None => x_emit ops budget out st r
      | Some _ => match emit None out nowhere r with (o, out', _) => (o, out', st) end
      end
    else (Ret tt, out, st).

  Variable http_gz : bytes -> outcome bytes.
  Variable search : bytes -> bool.
  (** filter_archive, warcfilter.py:78-117, the loop body *)
  Definition x_filter_record (opt : fopt) (invert : bool) (out : bytes) (st : fs) (r : record) : outcome unit * bytes * fs :=
    let wanted o := xorb (opt_search search o) invert in
    match opt with
    | FUrl => x_emit_if (wanted (rec_url r)) out st r
    | FType => x_emit_if (wanted (rec_type r)) out st r
    | FContentType =>
        after_step (x_rec_content_type r st) out (fun ct r' st' =>
          if truthy ct then after_step (x_rec_content_type r' st') out (fun ct' r'' st'' => x_emit_if (wanted ct') out st'' r'')
          else x_emit_if invert out st' r')
    | FHttpType =>
        if is_some_eq (rec_type r) V_RESPONSE then
          after_step (x_rec_content_type r st) out (fun ct r' st' =>
            match ct with
            | None => (Raise EAttributeError, out, st')
            | Some ct =>
                if startswith APPLICATION_HTTP ct then
                  after_step (x_rec_content r' st') out (fun c r'' st'' =>
                    match snd c with
                    | Some content =>
                        match http_mime http_gz content with
                        | Ret mime => x_emit_if (wanted mime) out st'' r''
                        | Raise e => (Raise e, out, st'')
                        | Diverge => (Diverge, out, st'')
                        end
                    | None => (Raise ETypeError, out, st'')
                    end)
                else (Ret tt, out, st')
            end)
        else (Ret tt, out, st)
    | FDate => x_emit_if (wanted (rec_date r)) out st r
    | FAny =>
        after_step (x_rec_content r st) out (fun c r' st' =>
          match snd c with
          | Some content => x_emit_if (xorb (existsb (fun kv => search (snd kv)) (r_headers r) || search content) invert) out st' r'
          | None => (Raise ETypeError, out, st')
          end)
    end.
  (** warcindex, warcindex.py:40-55, the loop body *)
  Definition x_index_body (name : bytes) (out : bytes) (st : fs) (it : item) : outcome bool * bytes * fs :=
    match it with
    | (off, Some r, _) =>
        after_step (x_rec_content_type r st) out (fun ct r1 st1 =>
          after_step (x_rec_content_length r1 st1) out (fun n _ st2 =>
            (Ret true, out ++ join (B " ") [name; show_offset off; or_dash (rec_type r); or_dash (rec_url r); or_dash (rec_id r); or_dash ct; dec_Z n] ++ [LF], st2)))
    | (_, None, _) => (Ret true, out, st)
    end.
End FaultyTools.
