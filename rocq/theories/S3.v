(** Archives in S3: hanzo/warctools/s3.py and expand_files of hanzo/warctools/__init__.py,
    as the requests they make.  Names and URLs are text; they are modelled as their UTF-8
    bytes, whose order is the order of S3 listings.  boto and the service are the
    environment: a bucket is a list of keys, and a listing request returns a page of the
    keys after the marker. *)
From Verif Require Export Record.
From Coq Require Import String List.
Open Scope list_scope.

(** ** urlparse, for URLs that start with s3: - urllib.parse.urlsplit: the network location
    ends at / ? or #, the path at ? or #.  (Not modelled: removal of tabs and newlines, the
    ValueError for unbalanced brackets.) *)
Fixpoint up_to (stop : list N) (s : bytes) : bytes * bytes :=
  match s with
  | [] => ([], [])
  | c :: t => if existsb (N.eqb c) stop then ([], s) else let '(a, b) := up_to stop t in (c :: a, b)
  end.
(** (p.netloc, p.path) *)
Definition s3_parse (url : bytes) : bytes * bytes :=
  let rest := skipn 3 url in
  let '(netloc, rest') := if startswith (B "//") rest then up_to [47; 63; 35]%N (skipn 2 rest) else ([], rest) in
  (netloc, fst (up_to [63; 35]%N rest')).

(** ** open_url, s3.py:18-36: the request it makes *)
Record request : Type := mkreq { rq_bucket : bytes; rq_key : bytes; rq_range : option bytes }.
Definition open_url (url : bytes) (offset len : option nat) : request :=
  let '(bucket, path) := s3_parse url in
  mkreq bucket (skipn 1 path)
    (match offset, len with
     | Some o, Some l => Some (B "bytes=" ++ dec_nat o ++ B "-" ++ dec_nat (o + l))
     | Some o, None => Some (B "bytes=" ++ dec_nat o ++ B "-")
     | None, _ => None
     end).

(** ** The service: bucket contents at each request, the page it returns *)
Fixpoint key_ltb (a b : bytes) : bool :=
  match a, b with
  | _, [] => false
  | [], _ :: _ => true
  | x :: a', y :: b' => N.ltb x y || (N.eqb x y && key_ltb a' b')
  end.
Record service : Type := mksvc {
  keys_at : nat -> list bytes;     (* the keys of the bucket when the n-th request is answered *)
  page_at : nat -> nat }.          (* how many keys fit in the n-th answer *)
(** bucket.get_all_keys(prefix=prefix, marker=marker, delimiter=''): the page and is_truncated *)
Definition get_all_keys (s : service) (n : nat) (pfx marker : bytes) : list bytes * bool :=
  let all := filter (fun k => startswith pfx k && key_ltb marker k) (keys_at s n) in
  (firstn (page_at s n) all, Nat.ltb (page_at s n) (List.length all)).
(** ** list_files, s3.py:38-55: the loop; the fuel bounds the number of requests.  The last
    key yielded is the marker. *)
Fixpoint list_loop (fuel : nat) (s : service) (n : nat) (pfx marker : bytes) : outcome (list bytes) :=
  match fuel with
  | O => Diverge
  | S fuel' =>
      let '(rs, truncated) := get_all_keys s n pfx marker in
      if truncated then
        bind (list_loop fuel' s (S n) pfx (last rs marker)) (fun more => Ret (rs ++ more))
      else Ret rs
  end.
Definition s3_url (bucket key : bytes) : bytes := B "s3://" ++ bucket ++ B "/" ++ key.
Definition list_files (fuel : nat) (s : service) (url : bytes) : outcome (list bytes) :=
  let '(bucket, path) := s3_parse url in
  omap (map (s3_url bucket)) (list_loop fuel s 0 (skipn 1 path) []).
(** ** expand_files, __init__.py:8-14; each listing sees its own service *)
Fixpoint expand_files (fuel : nat) (s : bytes -> service) (files : list bytes) : outcome (list bytes) :=
  match files with
  | [] => Ret []
  | f :: files' =>
      bind (if startswith (B "s3:") f then list_files fuel (s f) f else Ret [f]) (fun a =>
        bind (expand_files fuel s files') (fun b => Ret (a ++ b)))
  end.
