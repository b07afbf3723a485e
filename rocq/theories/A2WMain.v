(** arc2warc.py: the options - the fields of the warcinfo record, where the output goes, when it is compressed. *)
From Verif Require Export Arc2Warc Unpack.
From Coq Require Import String List ZArith.
Open Scope list_scope.

(** str.encode('utf-8') (trusted base): texts are lists of code points; a surrogate raises UnicodeEncodeError, a ValueError *)
Definition utf8_char (c : N) : outcome bytes :=
  (if c <? 128 then Ret [c]
   else if c <? 2048 then Ret [192 + c / 64; 128 + c mod 64]
   else if (55296 <=? c) && (c <=? 57343) then Raise EValueError
   else if c <? 65536 then Ret [224 + c / 4096; 128 + (c / 64) mod 64; 128 + c mod 64]
   else Ret [240 + c / 262144; 128 + (c / 4096) mod 64; 128 + (c / 64) mod 64; 128 + c mod 64])%N.
Fixpoint utf8 (t : text) : outcome bytes :=
  match t with
  | [] => Ret []
  | c :: t => bind (utf8_char c) (fun x => bind (utf8 t) (fun y => Ret (x ++ y)))
  end.
(** warcinfo_fields, arc2warc.py:180-188 *)
Definition warcinfo_fields (hostname description operator publisher audience : text) : outcome bytes :=
  utf8 (join CRLF
    [B "software: hanzo.arc2warc"; B "hostname: " ++ hostname; B "description: " ++ description; B "operator: " ++ operator;
     B "publisher: " ++ publisher; B "audience: " ++ audience]).
(** the options, arc2warc.py:25-42 (the limit, the log level and the output directory are not used) *)
Record a2w_options : Type := mkopts {
  op_output : option text; op_gzip : bool;
  op_description : text; op_operator : text; op_publisher : text; op_audience : text;
  op_resource : list text; op_response : list text }.
(** what a run leaves behind: its ending - a status, an exception or SystemExit(2) as status 2 -, standard output and the output file
    ([None]: there is none) *)
Record a2w_result : Type := mkres { rs_end : outcome Z; rs_stdout : bytes; rs_file : option bytes }.
(** main, arc2warc.py:196-234: the output file is opened for appending first (lines 204-205); prefixes come as texts; [old] is what the output
    file held, [None] if it did not exist.  Failures to open a file are not modelled, nor is standard error. *)
Definition a2w_main (gunzip : bytes -> bytes) (http_gz : bytes -> outcome bytes) (uuid : bytes -> bytes) (clock : nat -> datetime)
    (gzip : gzipper) (hostname : text) (o : a2w_options) (files : list input) (old : option bytes) : a2w_result :=
  let name := match op_output o with Some ((_ :: _) as n) => Some n | _ => None end in
  let file := match name with Some _ => Some (match old with Some b => b | None => [] end) | None => old end in
  let compress := match name with Some n => endswith (B ".gz") n || op_gzip o | None => op_gzip o end in
  let given := match name with Some _ => true | None => false end in
  match files with
  | [] => mkres (Ret 2%Z) [] file
  | _ =>
      match warcinfo_fields hostname (op_description o) (op_operator o) (op_publisher o) (op_audience o) with
      | Ret fields =>
          let '(e, out) := arc2warc gunzip http_gz uuid clock (if compress then Some gzip else None) given fields
                             (map (fun _ => Arc2Warc.PText) (op_resource o)) (map (fun _ => Arc2Warc.PText) (op_response o)) files in
          if given then mkres (omap (fun _ => 0%Z) e) [] (option_map (fun b => b ++ out) file)
          else mkres (omap (fun _ => 0%Z) e) out file
      | Raise e => mkres (Raise e) [] file
      | Diverge => mkres Diverge [] file
      end
  end.
