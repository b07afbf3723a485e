(** record.dump and warcdump over a file whose calls may fail (see Faults.v): the definitions of Dump.v once more, citing the same lines. *)
From Verif Require Export FaultTools Dump.
From Coq Require Import String List ZArith.
Open Scope list_scope.

(** ArchiveRecord.dump, record.py:151-165, from 'Content Headers:' on, for the record [r] - [r'] once its content has been read *)
Definition dump_rest (out1 : bytes) (r r' : record) (c : option bytes * option bytes) : outcome unit * bytes :=
  let out2 := print out1 (B "Content Headers:") in
  match fst c with
  | None => (Raise EAttributeError, out2)
  | Some ct =>
      let out3 := print out2 ([9%N] ++ ct_name r ++ B " : " ++ ct) in
      match snd c with
      | None => (Raise ETypeError, out3)
      | Some body =>
          let out4 := print out3 ([9%N] ++ cl_name r ++ B " : " ++ dec_nat (List.length body)) in
          let out5 := print out4 (B "Content:") in
          let out6 := print out5 ([9%N] ++ strip_sub (firstn (Nat.min 1024 (List.length body)) body)) in
          dump_errors (print (print out6 ([9%N] ++ B "...")) []) r'
      end
  end.
(** ... and the loop goes on unless it raised *)
Definition and_go_on {S} (x : outcome unit * bytes) (st : S) : outcome bool * bytes * S :=
  match x with
  | (Ret _, out) => (Ret true, out, st)
  | (Raise e, out) => (Raise e, out, st)
  | (Diverge, out) => (Diverge, out, st)
  end.
(** dump_archive, warcdump.py:41-52, the loop body *)
Definition x_dump_item {F} (ops : fops F) (name : bytes) (out : bytes) (st : fstream F) (it : item) : outcome bool * bytes * fstream F :=
  match it with
  | (off, Some r, _) =>
      let out1 := dump_headers (print out (B "archive record at " ++ name ++ [58%N] ++ show_offset off)) r in
      after_step (x_rec_content ops r st) out1 (fun c r' st' => and_go_on (dump_rest out1 r r' c) st')
  | (_, None, []) => (Ret true, print (print out []) (B "note: no errors encountered in tail of file"), st)
  | (off, None, errs) =>
      (Ret true,
       fold_left (fun out e => print out ([9; 32]%N ++ show_perr e)) errs
         (print out (B "warc errors at " ++ name ++ [58%N] ++ dec_nat (match off with Some n => n | None => 0 end))), st)
  end.
