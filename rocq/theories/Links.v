(** warclinks.py, on the Python versions on which it can be imported (3.3 and 3.4: html.parser.HTMLParseError was removed in 3.5).
    Texts are lists of code points. *)
From Verif Require Export Unpack.
From Coq Require Import String List ZArith.
Open Scope list_scope.

(** *** the tool *)
(** extract_links_from_warcfh, warclinks.py:54-76: the body of its loop over read_records(limit=None); the state is the links
    printed.  The content of every record is read (line 58); for a response, content_type.startswith('application/http') with a
    text raises TypeError (AttributeError if there is no content type), so the lines below are not reached; exceptions are caught
    (lines 69-71).  Log lines are not modelled. *)
Definition links_record (s : list text) (st : stream) (r : record) : outcome (list text) * stream :=
  match rec_content r st with
  | (Ret (ct, _), r', st') =>
      if is_some_eq (rec_type r') V_RESPONSE
      then match bytes_startswith_text ct with
           | Ret _ => (Ret s, st')        (* not reached *)
           | Raise e => (Raise e, st')
           | Diverge => (Diverge, st')
           end
      else (Ret s, st')
  | (Raise e, _, st') => (Raise e, st')
  | (Diverge, _, st') => (Diverge, st')
  end.
Definition links_body (s : list text) (st : stream) (it : item) : outcome bool * list text * stream :=
  match snd (fst it) with
  | Some r => match links_record s st r with
              | (Ret s', st') => (Ret true, s', st')
              | (Raise _, st') => (Ret true, s, st')
              | (Diverge, st') => (Diverge, s, st')
              end
  | None => (Ret true, s, st)
  end.
(** main, warclinks.py:202-222, with file names: the links printed and the status; a file that cannot be opened ([None]) or read is
    logged and counted (lines 218-220) *)
Fixpoint links_files (gunzip : bytes -> bytes) (files : list (option input)) (s : list text) (ret : Z) : outcome Z * list text :=
  match files with
  | [] => (Ret ret, s)
  | None :: t => links_files gunzip t s (ret - 1)
  | Some i :: t =>
      match open_input gunzip i with
      | Ret st =>
          match for_read_records None true links_body s st with
          | (Ret _, s', _) => links_files gunzip t s' ret
          | (Raise _, s', _) => links_files gunzip t s' (ret - 1)
          | (Diverge, s', _) => (Diverge, s')
          end
      | Raise _ => links_files gunzip t s (ret - 1)
      | Diverge => (Diverge, s)
      end
  end.
Definition warclinks (gunzip : bytes -> bytes) (files : list (option input)) : outcome Z * list text := links_files gunzip files [] 0.

(** *** the fallback link extractor, warclinks.py:110-199 *)
(** the attributes of a start tag, as HTMLParser hands them out: a value may be missing *)
Definition attrs : Type := list (text * option text).
(** attr_extractor, lines 111-114 *)
Definition attr_extractor (names : list text) (a : attrs) : list text :=
  flat_map (fun kv => match snd kv with
                      | Some ((_ :: _) as v) => if existsb (text_eqb (fst kv)) names then [v] else []
                      | _ => []
                      end) a.
(** str.strip(): the white space of Unicode *)
Definition text_space (c : N) : bool :=
  (N.leb 9 c && N.leb c 13) || (N.leb 28 c && N.leb c 32) || N.eqb c 133 || N.eqb c 160 || N.eqb c 5760 ||
  (N.leb 8192 c && N.leb c 8202) || N.eqb c 8232 || N.eqb c 8233 || N.eqb c 8239 || N.eqb c 8287 || N.eqb c 12288.
Definition text_strip (s : text) : text := rev (drop_while text_space (rev (drop_while text_space s))).
(** meta_extractor, lines 116-124; bits[0].lower() is compared with an ASCII word, for which lower-casing ASCII letters is
    enough *)
Definition meta_pair (pair : text) : list text :=
  match split_max 2 61 pair with
  | b0 :: b1 :: _ => if text_eqb (lower b0) (B "url") then [text_strip b1] else []
  | _ => []
  end.
Definition meta_extractor (a : attrs) : list text :=
  flat_map (fun value => flat_map meta_pair (split_all 59 value)) (attr_extractor [B "content"] a).
(** the table, lines 133-157 *)
Definition tag_table : list (text * list text) :=
  [(B "a", [B "href"]); (B "applet", [B "code"]); (B "area", [B "href"]); (B "bgsound", [B "src"]); (B "body", [B "background"]);
   (B "embed", [B "href"; B "src"]); (B "fig", [B "src"]); (B "form", [B "action"]); (B "frame", [B "src"]); (B "iframe", [B "src"]);
   (B "img", [B "href"; B "src"; B "lowsrc"]); (B "input", [B "src"]); (B "link", [B "href"]); (B "layer", [B "src"]);
   (B "object", [B "data"]); (B "overlay", [B "src"]); (B "script", [B "src"]); (B "table", [B "background"]);
   (B "td", [B "background"]); (B "th", [B "background"])].
Definition table_get (tag : text) : option (list text) :=
  option_map snd (find (fun e => text_eqb (fst e) tag) tag_table).
(** a LinkParser: the links and the base *)
Definition linkparser : Type := list text * text.
(** handle_starttag, lines 165-168, with base_extractor, 159-163 *)
Definition handle_starttag (p : linkparser) (tag : text) (a : attrs) : linkparser :=
  let '(links, base) := p in
  if text_eqb tag (B "meta") then (links ++ meta_extractor a, base)
  else if text_eqb tag (B "base") then
    match attr_extractor [B "href"] a with
    | [] => (links, base)
    | hs => (links, last hs [])
    end
  else match table_get tag with
       | Some names => (links ++ attr_extractor names a, base)
       | None => (links, base)
       end.
Definition handle_all (base : text) (tags : list (text * attrs)) : linkparser :=
  fold_left (fun p t => handle_starttag p (fst t) (snd t)) tags ([], base).

(** os.path.split(p)[0] *)
Definition path_head (p : text) : text :=
  let head := match rfind SLASH p with Some i => firstn (S i) p | None => [] end in
  if forallb (N.eqb SLASH) head then head else rev (drop_while (N.eqb SLASH) (rev head)).
(** the loop of lines 182-189 *)
Fixpoint follow_dots (fuel : nat) (dir path : text) : outcome (text * text) :=
  match fuel with
  | O => Diverge
  | S fuel' =>
      if startswith (B "../") path then follow_dots fuel' (path_head dir) (skipn 3 path)
      else if startswith (B "./") path then follow_dots fuel' dir (skipn 2 path)
      else Ret (dir, path)
  end.
Section Urls.
  (** urllib.parse (oracles): scheme, netloc, path, params and query of a URL - the fragment is never used -, and the URL made of
      such parts without a fragment; urlparse raises ValueError for some URLs *)
  Record parts : Type := mkparts { u_scheme : text; u_netloc : text; u_path : text; u_params : text; u_query : text }.
  Variable urlparse : text -> outcome parts.
  Variable urlunparse : parts -> text.
  (** one link, lines 175-198; [root] is the base parsed *)
  Definition abs_link (root : parts) (link : text) : outcome text :=
    bind (urlparse link) (fun parsed =>
    match u_netloc parsed with
    | _ :: _ => Ret link
    | [] =>
        if startswith [SLASH] (u_path parsed) then
          Ret (urlunparse (mkparts (u_scheme root) (u_netloc root) (u_path parsed) (u_params parsed) (u_query parsed)))
        else
          bind (follow_dots (S (List.length (u_path parsed))) (path_head (u_path root)) (u_path parsed)) (fun dp =>
          Ret (urlunparse (mkparts (u_scheme root) (u_netloc root) (join_path (fst dp) (snd dp)) (u_params parsed) (u_query parsed))))
    end).
  (** get_abs_links, lines 170-199 *)
  Fixpoint abs_links (root : parts) (links : list text) : outcome (list text) :=
    match links with
    | [] => Ret []
    | l :: t => bind (abs_link root l) (fun u => bind (abs_links root t) (fun us => Ret (u :: us)))
    end.
  Definition get_abs_links (p : linkparser) : outcome (list text) := bind (urlparse (snd p)) (fun root => abs_links root (fst p)).
  (** extract_links_from_html (the fallback), lines 99-107, on the start tags HTMLParser finds; it yields its links only when all
      of them are made *)
  Definition page_links (base : text) (tags : list (text * attrs)) : outcome (list text) :=
    get_abs_links (handle_all base tags).
End Urls.
