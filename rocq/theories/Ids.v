(** Record identifiers and digests: WarcRecord.warc_uuid, random_warc_uuid, block_digest
    (warctools/warc.py:137-151) and ArcTransformer.make_warc_uuid (arc2warc.py:63-65).

    The hash functions and the random numbers are parameters. *)
From Verif Require Export Record.
From Coq Require Import String List.
Open Scope list_scope.

(** one lower case hexadecimal digit *)
Definition hex_char (d : N) : N := if N.ltb d 10 then 48 + d else 87 + d.
(** hash.hexdigest(): two digits for every byte *)
Definition hexdigest (d : bytes) : bytes := concat (map (fun c => [hex_char (N.div c 16); hex_char (N.modulo c 16)]) d).
(** int(text, 16) of a text of lower case digits *)
Definition hex_val (c : N) : N := if N.ltb c 58 then c - 48 else c - 87.
Definition hex_int (s : bytes) : N := fold_left (fun n c => 16 * n + hex_val c)%N s 0%N.
(** '%032x' % n, for n below 2^128: 32 digits *)
Fixpoint hex_digits (k : nat) (n : N) : bytes :=
  match k with
  | O => []
  | S k' => hex_char (N.modulo (N.div n (16 ^ N.of_nat k')) 16) :: hex_digits k' n
  end.
Definition DASH : bytes := [45%N].
(** str(UUID): uuid.py UUID.__str__ *)
Definition uuid_str (n : N) : bytes :=
  let h := hex_digits 32 n in
  firstn 8 h ++ DASH ++ firstn 4 (skipn 8 h) ++ DASH ++ firstn 4 (skipn 12 h) ++ DASH ++ firstn 4 (skipn 16 h) ++ DASH ++ skipn 20 h.
Definition urn (n : N) : bytes := B "<urn:uuid:" ++ uuid_str n ++ B ">".

Section Ids.
  (** hashlib.sha1(text).digest(), hashlib.sha256(text).digest() *)
  Variables sha1 sha256 : bytes -> bytes.
  (** WarcRecord.warc_uuid, warc.py:144-147; ArcTransformer.make_warc_uuid, arc2warc.py:63-65:
      uuid.UUID(hex) is int(hex, 16) of the 32 digits *)
  Definition warc_uuid (text : bytes) : bytes := urn (hex_int (firstn 32 (hexdigest (sha1 text)))).
  (** WarcRecord.random_warc_uuid, warc.py:149-151: uuid.uuid4() is UUID(bytes=os.urandom(16),
      version=4), which sets the variant and the version (uuid.py UUID.__init__) *)
  Definition bytes_int (s : bytes) : N := fold_left (fun n c => 256 * n + c)%N s 0%N.
  Definition uuid4_int (n : N) : N :=
    let n1 := N.ldiff n (N.shiftl 49152 48) in
    let n2 := N.lor n1 (N.shiftl 32768 48) in
    let n3 := N.ldiff n2 (N.shiftl 61440 64) in
    N.lor n3 (N.shiftl 4 76).
  Definition random_warc_uuid (random : bytes) : bytes := urn (uuid4_int (bytes_int random)).
  (** WarcRecord.block_digest, warc.py:137-142: a text (str), here its characters *)
  Definition block_digest (content : bytes) : bytes := B "sha256:" ++ hexdigest (sha256 content).
End Ids.

(** The headers as a caller can give them: a value may be a text (str) instead of bytes.
    The header loop of _write_to, warc.py:88-93, on a binary file: what is written, and whether
    every write worked; writing a text to a binary file raises TypeError. *)
Inductive hval : Type := HBytes (b : bytes) | HText (t : bytes).
Fixpoint write_values (from_file : bool) (nl : bytes) (hs : list (bytes * hval)) : bytes * bool :=
  match hs with
  | [] => ([], true)
  | (k, v) :: t =>
    if keeps_header from_file (k, []) then
      match v with
      | HBytes b => let '(d, ok) := write_values from_file nl t in (header_line nl (k, b) ++ d, ok)
      | HText _ => (k ++ [58; 32]%N, false)
      end
    else write_values from_file nl t
  end.
(** _write_to of a record with such headers up to the end of the header loop, without
    compression; warc.py:86-93 *)
Definition write_head (from_file : bool) (nl version : bytes) (hs : list (bytes * hval)) : outcome unit * bytes :=
  let '(d, ok) := write_values from_file nl hs in
  (if ok then Ret tt else Raise ETypeError, version ++ nl ++ d).
