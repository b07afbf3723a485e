# Formal model of internetarchive/warctools in Coq 8.16.1

The model is a shallow, executable Gallina transcription of the Python code in `/repo`; the theorems
(`Cnn_…`, one or more per property of `properties.jsonl`) are about that model. Nothing here runs the
Python code: the tie between the two is the reading of the source, which every definition cites.

## 1. Trusted base

1. **Coq's kernel** (8.16.1), `coqc` and the standard library. No kernel check is switched off; there are
   no axioms, `Admitted`, functors, module types or plugins.
2. **Axioms.** `theories/Assumptions.v` runs `Print Assumptions` on every property theorem; each answer is
   *Closed under the global context*. (The checker also lists module-type fields of `Coq.ssr.ssrunder`,
   which the standard library's `ssreflect` files carry; no theorem uses them.) Libraries imported: `List`,
   `NArith`, `ZArith`, `Lia`, `String`, `Permutation`, `Bool` from the standard library; nothing else.
3. **The model is faithful to the code.** Every model definition cites file and lines. The Python
   primitives it rests on are models too and belong to the trusted base: `PyBytes.v` (methods of `bytes`,
   `int(b, base)` with sign, white space, underscores and prefix, but without the limit of 4300 digits that Python 3.11 added; `str(n)`), `Regex.v` (a backtracking
   matcher with the priorities of Python's `re`), `FileIO.v` (`read`, `readline`, `tell`, `seek` of binary
   files), `Dates.v` (`strptime`, `isoformat`), `S3.v` (`urlparse` of s3 URLs), `HttpRequest.v` (`repr` of bytes),
   `Unpack.v`, `Links.v` (`posixpath`: join, normpath, splitext, basename, split; `str.strip`), `A2WMain.v` (UTF-8), `GzHandle.v` (how `GzipFile` takes its mode from the file, the mode of an open file). As a sanity check outside the proofs,
   `tools/difftest.py` evaluates these Gallina definitions on random inputs and compares the answers with CPython 3.11's; no difference was found.
4. **Oracles**: parameters of the model, so every theorem holds for all of them, under the hypothesis named
   in its statement if there is one.
   * `gunzip : bytes -> bytes` — what `GzipFile(fileobj=f).read()` gives for the rest of a file. C20, C45:
     only that it undoes a concatenation of members (`gzip_pair`). Archives of which only a part can be
     decompressed are in `Faults.v`: a file that gives the first bytes and raises when a call needs more.
   * `gzipper` — `member d`: the gzip member `GzipFile` writes for the contents `d`; `torn d`: what has reached the
     file when writing is broken off by an exception after `d` and the `GzipFile` is thrown away (CPython then
     finishes the member; nothing about it is assumed).
   * `http_gz : bytes -> outcome bytes` — gzip decompression inside the HTTP parser. `gz_ok`: it returns or
     raises OSError, EOFError or zlib.error.
   * `unzlib`, `ungzip` (content decoding), `search` (a user's regular expression), the SHA-1 and SHA-256 functions (`uuid` in the theorems on arc2warc is any function
     from texts to identifiers; `Ids.v` gives the one of the code over any hash function), random bytes, `clock` (`datetime.now`), `http_client` (what Python's `http.client.HTTPResponse` makes of
     a payload), a handle in text mode (any object whose `readline` and `read` give texts), `isalpha`/`isdigit`, `mimetypes.guess_extension`, `os.path.realpath` and
     `os.makedirs`, the S3 service (bucket contents at each request, page sizes).
5. The Python version: 3.5 or later (as `pyproject.toml` demands), where text and bytes never compare equal
   and `GzipFile` has no `_read` hook.

## 2. Conventions

* **Bytes** are `list N`; all theorems quantify over all such lists, a superset of Python's byte strings.
* **Exceptions** are values: `outcome A := Ret a | Raise e | Diverge`.
* **Loops** are recursion on fuel, `Diverge` is exhaustion. The fuel is computed from the size of the input,
  and is enough: C09 (`C09_hangs_iff`, `C09_endless`) and C40 show that `Diverge` occurs only for inputs on
  which no amount of fuel suffices, i.e. on which the Python loop does not terminate.
* **Mutable objects** (streams, records, messages) are passed in and handed back. A record read from a
  stream shares the stream's file (`CF_stream`), as in the code.
* **Regular expressions** of the code are transcribed as syntax trees and run by `Regex.v`; none is
  replaced by a hand-written recogniser. Their meaning on the texts of the specification is proved in
  `RegexFacts.v`, `WarcRx.v`, `ArcFacts.v`, `PropsRequest.v`.

## 3. Files (`rocq/theories`)

| Kind | Files |
|---|---|
| Python primitives | `PyBytes`, `Regex`, `FileIO`, `Dates` |
| Model of the code | `Stream`, `Record`, `Warc`, `Arc`, `Reader` (mixed, read_records, iteration, opening), `Http`, `HttpRequest`, `Http09`, `FeedFd`, `HttpRaise` (after exceptions), `Conn` (a request and its response), `Shelf` (the records of a stream, kept), `GzSeek` (seeking in a compressed stream), `Attrs` (the attributes of a message at any time), `Delegate` (those of a response and its request), `Cli` (the arguments of warcpayload, warcextract and warcindex), `Remote` (s3:// names), `Semantics` (named codes and methods), `Shared` (the lists records hold, as objects), `Iters` `IterSpec` (generators over one stream), `Closing` (a closed stream and the records kept from it), `Life` (calls on one record), `Tools`, `Dump`, `Sink` (writing call by call), `Into`, `Faults` `FaultTools` `FaultDump` `FaultW2w` (reading when calls fail), `Ids` (identifiers, digests), `Arc2Warc`, `A2WMain` (its options), `GzHandle` (outputs for compressed records), `S3`, `TextMode` (handles in text mode, stdin), `Unpack` (warcunpack_ia), `Links` (warclinks) |
| Specification | `WarcSpec`, `ArcSpec`, `HttpSpec`, `HttpAny`, `LifeSpec` `ShelfSpec` `AnyShelfSpec`, and the few definitions directly above each theorem in `Props*` |
| Lemmas | `*Facts`, `WarcRx`, `WarcLines`, `WarcRead`, `WarcArchive`, `WarcWrite`, `HttpSplit`, `HttpRun`, `HttpHead`, `HttpFrame`, `HttpBody`, `HttpShift`, `HttpHist`, `HttpTidy`, `Place`, `FaultFacts`, `HttpAnyFacts`, `HttpAnyRun`, `HttpPipe`, `ConnFacts`, `HttpRaiseFacts`, `HttpRaiseRun`, `HttpPlant` |
| Theorems | `PropsRead` `PropsCut` `PropsParse` `PropsRecord` `PropsArc` `PropsHttp` `PropsHttpMsg` `PropsHttpMore` `PropsHttpDecoded` `PropsTools` `PropsFilter` `PropsValid` `PropsReading` `PropsAnyFile` `PropsCopyTwice` `PropsAnyList` `PropsArcAny` `PropsMixedAny` `PropsDateAny` `PropsA2WAny` `PropsEnds` `PropsLinks` `PropsA2WMain` `PropsGzHandle` `PropsHttpAny` `PropsHttpRaise` `PropsConn` `PropsShelf` `PropsGzSeek` `PropsAttrs` `PropsClosing` `PropsAnyShelf` `PropsDelegate` `PropsCli` `PropsRemote` `PropsSemantics` `PropsShared` `PropsIters` `PropsPipes` `PropsNewline` `PropsCutCopy` `PropsCutTools` `PropsCutDump` `PropsCutW2w` `PropsLife` `PropsIndex` `PropsA2W` `PropsA2WMore` `PropsFactory` `PropsS3` `PropsIter` `PropsRequest` `PropsPlace` `PropsPayload` `PropsDump` `PropsResume` `PropsSink` `PropsInto` `PropsHttp09` `PropsFeedFd` `PropsFaults` `PropsIds` `PropsTextMode` `PropsUnpack` `PropsUnpackMore` |
| Sanity tests and non-vacuity examples | `Checks`, `HttpExamples`, `ToolExamples`, `MoreExamples`, and `Example`s next to the theorems |

## 4. What is modelled, file by file

| Source | Modelled | Not modelled |
|---|---|---|
| `warctools/stream.py` | `open_record_stream` (all classes and gzip modes), `RecordStream` (seek, read_records, `__iter__`, `_read_record`, `_skip_to_eoc`, `read`, `readline`, `readinto`, `write`, `close`), `GzipRecordStream._read_record`, `GzipRecordStream.seek` (before the first read as warcextract uses it in `Tools.v`, at any time in `GzSeek.v`), `GzipFileStream` | how much `GzipFile` takes in at a time (any amount, per call), what it makes of a member cut short by a seek, `GeeZipFile._read` (never called), the file below a GzipFile that is closed, closing a file the caller assigned |
| `warctools/record.py` | accessors, lazy `content`, `content_type`, `content_length`, `get_header`, `set_header`, `dump`, `write_to`, assigning `content_file` | assigning a record stream to `content_file` by hand, `readline` on a caller's file, `add_headers` (class decoration) |
| `warctools/warc.py` | constructor, `_write_to`, parser, factories, `warc_datetime_str`, `block_digest`, `warc_uuid`, `random_warc_uuid` (over any hash function and any random bytes) | `repair`/`validate` (empty) |
| `warctools/arc.py`, `mixed.py`, `archive_detect.py` | all of it | — (writing an ARC record writes nothing) |
| `warctools/s3.py`, `__init__.py` | requests made, paging, `expand_files`, the `StringIO` an object is read into and what follows (`Remote.v`) | boto (taken to use its handle only through `write`), the network, credentials |
| `httptools/messaging.py` | both message classes with all readers, headers, trailers, decoded messages, request attributes, HTTP/0.9 responses, `feed_fd` | the limit of recent Pythons on the number of digits `int()` takes |
| `httptools/semantics.py` | all of it (`Semantics.v`) | — |
| `warc2warc`, `warcfilter`, `warcvalid`, `warcindex`, `warcextract`, `warcpayload`, `warcdump`, `arc2warc` | what is written to the output and how the run ends, for files named on the command line; for `warcdump`, `warcextract`, `warc2warc`, `warcfilter` also without arguments (records from stdin, `TextMode.v`) | `optparse`; standard error |
| `warclinks.py` | the loops of `main` and `extract_links_from_warcfh`; the fallback link extractor (`attr_extractor`, `meta_extractor`, `LinkParser`, `get_abs_links`) on the start tags `HTMLParser` finds, as on Python 3.3 and 3.4 (since 3.5 the module cannot be imported: `html.parser.HTMLParseError` is gone) | `HTMLParser` itself, lxml, `urlparse`/`urlunparse` (oracles); `parse_http_response` and what follows it (never reached: a byte string is compared with a text prefix); log lines |
| `warcunpack_ia.py` | `output_file` with the path functions, pages one after the other, `unpack_records` and `main` as they behave on Python 3 | what `parse_http_response`, `shlex`, the log lines would do: never reached on Python 3 (C73); failures of `open` and `os.makedirs` in `main` |

## 5. Per property

Status of all: proved, none partial (`MANIFEST.json` lists the theorems). "Method" is how.

* **C01, C02, C03, C06** — a record is a value `wrec`, an archive is its text with separators; `write_to`
  produces that text (`WarcWrite`); the parser is run symbolically on it, regular expressions included
  (`WarcRx`, `WarcLines`, `WarcRead`), and `read_records`/iteration by induction over the archive (`WarcArchive`).
  C03 also has the refutation: after a partial read, `seek` does not clear the pending payload.
* **C04, C05, C07** — invariant "inside the payload: n bytes left" over any list of reads with non-negative limits.
* **C08** — case analysis on the cut point, induction over header lines.
* **C09** — the header loop refined to a function on lines; divergence iff a `stuck` line is met.
* **C10, C11, C12, C13, C23, C24** — the same refinement for arbitrary lines, with junk, prefixes, folding,
  line ends and arbitrary Content-Length values.
* **C14–C19** — direct, about accessors and `write_to`, for all records. **C20–C22, C25** — opening and compression.
* **C26–C30** — `units` (filedesc, ARC and WARC records mixed) with separable fields (`joints`): the code
  splits with `\b\s|\s\b`, so a separator space needs a word character next to it; `C28` is unconditional.
* **C31–C44, C57** — `feed` is shown equivalent to feeding one byte at a time (`HttpSplit`), which gives
  independence of the split (C32) with its exact exceptions, and lets message theorems be stated for any
  pieces. Histories: `reached` (C32, C40), `session` (C31), `guided` (C44).
* **C45–C49** — tool loops over lists of files, each a plain or compressed archive; C45 and C48 also for
  every layout the reader accepts (`garchive`).
* **C50–C52** — the converter is related to a declarative relation (`becomes_files`, `kind`, `dated`).
* **C53** — instances of C01 for the factories. **C54, C55** — paging by induction on the keys left, for a changing bucket too.
* **C56** — iteration: ends normally only on a clean end. **C58** — request attributes by induction over header lines.
* **C59** — a simulation between two streams whose unread bytes are equal (`Place`), kept by every operation of
  every parser. **C60** — every read that returns a record or errors moves forward (`later`), so the loops'
  fuel (more than the bytes left) is never used up. **C61** — symbolic runs on top of C06, C11 and C59.
* **C62** — the preview by cases over bytes, the tool by induction over files and records on top of C06 and C11.
  **C63** — induction over the loop's fuel; two loops with different limits take the same steps.
* **C64** — `write_to` as the sequence of calls on an output with a given amount of room; composition of "stores the first n
  bytes" over the calls and the copy loop. **C65** — the same calls with the stream as output. **C66** — reduced to C04.
* **C67** — induction over the operations; a refused start line by the equations of `feed_line`. **C68** — on top of C33 and
  C36; hanging is shown for every amount of fuel.
* **C70** — hexadecimal digits as values below 16; formatting undoes parsing (positional arithmetic by induction); the fixed
  bits of a random identifier by distributing digit extraction over the bit operations.
* **C71** (and the full form of C48) — the refinement of C09–C13 to a function on lines, plus a declarative description of a record
  as it stands in the file (`reads_as`), shown exhaustive (search for the version line, splitting of the header block) and
  unique; whole files by the inductive relation `file_run`, total and deterministic.
* **C69** — the reading code once more over an arbitrary file whose operations may raise (`Faults.v`), related step by step to
  the model without failures: same outcome and related states, or the failure was raised and the other file is in the
  unreadable part. Loops by induction. A cut file is an instance for every continuation of the cut text. warcfilter, warcindex, warcdump and warc2warc are
  modelled over such files in `FaultTools.v`, `FaultDump.v` and `FaultW2w.v` and related to the tools without failures in the same way.

* **C72** — the reading and opening code over an arbitrary handle whose calls give texts or bytes (`TextMode.v`); symbolic runs. On a
  handle giving bytes it is shown equal to the model of `Reader.v`.
* **C74** — `tool_run` describes a run over any text in terms of C71's readings; the tools' loop follows it (induction over the run), every
  text has a run (`tool_total`, strong induction on the length), so the description and the program agree both ways. `copy_visit` and
  `filter_visit` say per record what is written.
* **C75** — `text_records`: the texts that are complete records in any layout. Canonical text of any reading reads back with stripped
  header values (`canon_reads`), `int` ignores white space around a number (`int_strip`), so the second copy is a fixed point.
* **C76** — as C74, with positions: `show_run` also carries the byte position, so that the offsets printed are tied to the text.
  `first_run` describes the tools that stop after one record. `index_visit`, `dump_visit`, `extract_visit`, `payload_visit` say what is
  printed per record.
* **C77** — `arc_fields` gives the fields of a header line by the places of its separators, `arc_reads` what a list of lines means. The regular
  expression split agrees with `arc_fields` (`split1_cuts`; for the reversed split `cuts_rev` and `separators_rev`); the reader follows `arc_reads`
  case by case, and every text has exactly one reading.
* **C78** — `finds` (one record, from C71 and C77) and `run_of` (a whole text); the loop follows the run, every text has a run (strong induction on the
  length), so both directions hold.
* **C60**, tools — from the any-file theorems (C74, C76, C78, C79): a run that ends with `Diverge` has a suffix on which the reader hangs, or a content on
  which the HTTP parser does (induction on the run).
* **C80** — the body of the loop does the same to the stream as that of C73 and never changes what is printed; the status by induction on the files.
* **C81** — `link_in`, `bases_of` say what a tag contributes, `resolved` what a link becomes (`dir_of`: the directory of a path; `below`: a path under it); the code's
  `os.path` calls are shown to compute these relations, in both directions; `C81_relative_path` is the usual case /d1/.../dm/file.
* **C82** — UTF-8 is shown injective by the width its first byte tells; that -o and the prefixes convert nothing follows from C79 by induction on the run
  (`visits`: the records of a text).
* **C83** — the constructor of `GzipFile` as a function of the attribute mode; a reader is a sink that refuses the first call
  (`Sink.v`), so the record is as before.
* **C84** — `HttpAny.v` describes texts by relations (start lines, lines of fields, framing, chunks, bodies, messages) that are shown to cover
  every text; the parser is run along them by induction on the derivation (`HttpAnyRun.v`, `PropsHttpAny.v`). As the relation is total and the
  parser a function, the equivalence follows from one direction.
* **C85** — `HttpRaise.v` gives the parser again with the state after an exception (shown to agree with `Http.v` for calls that return). The
  refused line is *planted* in the text of a parser (`HttpPlant.v`): feeding commutes with planting text before the current line, so a run with
  the line and one without it go in step.
* **C86** — `LifeSpec.v` gives a state machine with rules per call; the record of the model (with its reader of pieces or the stream it is
  read from) simulates it step by step, which also keeps the place of the next record (`PropsLife.v`). The rest by induction over histories.
* **C87** — the caller's loop is an inductive relation over calls of `feed`; induction over the bytes still to come, with `feed_more` (what follows
  a complete message does not matter) and C32 for the pieces. The two parsers: `Conn.v` renews the response's method from the request before each
  call; changing the method commutes with every parser step but the choice of the body reader (`ConnFacts.v`), hence induction over the calls.
* **C88** — `ShelfSpec.v` is a state machine over the records read so far, what is left of the last payload, and the records to come; the
  model simulates it step by step (`laid_out`, on top of the simulation for one record of C86). The rest by induction over histories of that machine.
* **C89** — `GzSeek.v` keeps the compressed file, the compressed bytes taken in so far and the stream over the decompressed text; what is decompressed is the
  concatenation of the stretches taken. By induction over the history, with the invariant that the stream stands before the records of a queue followed by those
  from the file's position on. `C89_what_was_taken_in_comes_first` allows seeks to any offset and takes that end inside a member (`gzip_front`: whole members are decompressed
  before anything that follows them). Not covered: which bytes come out after a member cut short by a seek (that is up to zlib).
* **C90** — `Attrs.v` carries the attributes along with the parser of `HttpRaise.v` (`C90_same_parser`: the parser is the same). Invariant over any calls (`told_run`):
  the text is refused or blank lines followed by an unfinished line, or by an accepted line; in the second case the attributes are a fold of the Host rule over the
  header list (a continuation line repeats the rule with the longer value). The lines are specified by their words and by what an absolute URL is (`absolute_url`,
  shown equivalent to the regular expression). For a response after interim 100 responses the theorem does not say where the text of these ends.
* **C91** — `Closing.v` gives the calls on records once more over the files of `Faults.v`, whose calls may raise; `C91_same_calls`: over a file that does not fail they
  are those of `Record.v`, `Life.v` and `Shelf.v`. A closed file is one whose every call raises ValueError. Invariant over any history on any archive (`sound`): a record
  whose content file is the stream has no known content. After closing, each record is either one of the objects of C86 (`LifeSpec.does` again) or an orphan with a
  small table of its own (`still_does`); `C91_after_closing` is the refinement for whole histories, the other theorems are read off it.
* **C92** — `AnyShelfSpec.v` is the caller's view for any file: a table of kept records, how the file stands behind the last one (within a payload of which so much is
  left, open-ended, behind a negative length) and the ARC field names in force; one rule per kind of event, the records themselves as in C71/C77/C78 (`look`) and the calls as in C86
  (`does`). `C92_history` is the refinement (induction on the history; invariant: the stream stands where the table says, PropsLife's `there`). `steady` is the plain loop over
  records that have lengths; `C92_same_items` and `C92_asked_in_time` follow from the table alone. Not said: what happens after a call on a record with a *negative* length, or
  after an exception other than the one for a cut payload (`Lost`).
* **C93** — `Delegate.v` puts Conn's two parsers and Attrs' attributes together and adds questions as events. `C93_asking_changes_nothing` relates it to C87 by
  induction on the events; `C93_response_says_what_the_request_says` reduces every answer to the request's attributes after its own calls (C90 says which these are).
* **C94** — `Cli.v` models the three mains on their arguments, above the tools of `Tools.v`. The theorems compose the index theorem, a characterisation of the
  split at the last colon and the payload theorems, so that the printed line itself is what the second tool is given.
* **C95** — `Remote.v` instantiates the handles of `TextMode.v` with `io.StringIO` and with a GzipFile over it; C72 gives that no read ends normally, and the loops of the
  tools over names end at the first key. **C96** — arithmetic of the hundreds, case analysis over the tables.
* **C97** — `Shared.v` is a heap of lists; records hold addresses. Frame theorems for each call on any sound world, and induction over histories. It justifies that elsewhere
  headers and errors are values: the parsers, the factories and arc2warc give every record lists of its own.
* **C98** — `Iters.v` models the generators' states. A refinement (`tells`) maps every program to a history of one loop (C88's), so C88 and C92 carry over; the offset-free
  reading of the parsers is shown to differ in the offset only.
* **C99** — composition of C45, C47, C48 and C50: the output of each tool is shown to meet the hypotheses (`holds_archive`, `holds_units`) of the next, with
  a closed form of the record a filter keeps (`kept`).
* **C100** — the text for a newline is a separate definition (`text_with`, `file_with`); reading back goes through the layout grammar of C06/C23 (a record written
  with LF is a `grec` whose lines all end in LF), C48 and C45; for odd newlines the first two lines of the text are computed and the parser's answer shown (C71).
* **C79** — `a2w_run` and `a2w_all` say what becomes of a text, record by record (`turns`), on top of `finds` (C78) and `date_read` (C52); the
  loop of the tool follows the run (induction on it), every text has a run, so both directions hold and the answer is unique.
* **C73** — paths as lists of names: `normpath` of a joined path is the `walk` along the names (induction over the components);
  the search for a free name by induction over its fuel, ending by counting distinct names.

Non-termination, compressed data, the S3 service and the clock are in the model (as `Diverge` and oracles). The
following cannot be expressed in it and are left out: memory use, operating-system errors other than failing reads (C69) and writes (C64), concurrent use of
one stream by several threads.

## 6. Findings about the code (each is a theorem or forced a hypothesis)

1. `RecordStream.seek` leaves `bytes_to_eoc`: seeking while payload is unread reads another item (C03, refuted form).
2. A header line without colon, or a file ending inside a header line, makes the WARC reader loop for ever (C08, C09).
3. A file cut between header lines is read as a complete record with empty payload; `warcvalid` accepts it (C08, C48).
4. An unknown WARC version (WARC/1.1!) raises TypeError instead of being reported (C12).
5. `Name:` CR LF is reported as having a wrong line end (C23). Content-Length -1 and `read(-1)` return the rest of the archive (C24).
6. `set_header` compares exactly, `get_header` ignores case: set then get can return the old value (C15); a differently
   spelled Content-Length survives writing and contradicts the true one (C16).
7. `gzip='file'` can read nothing (C22); offsets in compressed archives are None (C21), so `warcindex` prints None (C49).
8. ARC: too few fields raise TypeError from inside the error branch (C28); a filedesc without length raises TypeError.
9. HTTP: a negative chunk size hangs (C40); results depend on the split for a blank first line, gzip with a length,
   an invalid first chunk size, and two interim responses (C32, C37, C39, C42); the decoded message of a coded
   body gets the length of the coded body (C38); keep_alive is False by default also for HTTP/1.1 (C57);
   https URLs default to port 80, `url` shows `b'…'`, an absolute URL without path cannot be written decoded (C58).
10. `warc2warc -D` raises AttributeError on the first record it should decode (C46). `warcfilter -H` raises NameError
    (`logging` is not imported) on any incomplete or overlong HTTP message (C47). `warcextract`/`warcpayload` raise
    NameError when they should report an error (C61).
11. arc2warc: `-o`, `--resource`, `--response` always raise TypeError (text/bytes); the dns test never holds; record ids
    of captures with equal URL and date are equal; a 12-digit date is misread (C50–C52).
12. S3: the range is one byte too long; listed keys with `?` or `#` cannot be opened by their listed name (C54, C55).
13. `record.dump()` raises on records without content type and on records with errors (C62).
14. `RecordStream.write(record)` raises AttributeError for every WARC record (C65).
15. After a failed write of a record with a content file, writing it again silently leaves out the bytes already read (C64);
    the check "content_file has already been used" is only armed by a successful write.
16. `readinto` after Content-Length -1 reads the rest of the file and overruns the buffer (C66).
17. HTTP: a refused start line loses the rest of the text fed with it, so `as_http09` gives a truncated body; `write_message`
    always raises (C67). `feed_fd` cannot read headers and hangs at the end of the file (C68).
18. A compressed archive that was cut off always leads to an exception (C69); the same archive uncompressed can be read
    without any complaint or make the reader hang, depending on the place (C08).
19. `block_digest` returns a text while every header value has to be bytes: a record given it cannot be written, and the
    attempt leaves half a header in the file (C70).
20. `warcvalid` rejects every ARC file, although the README says "valid W/ARC files" (C48).
21. Every tool's stdin mode ends with TypeError at the first line, whatever stands there, because `sys.stdin` gives text; the README
    recommends these modes (C72).
22. `warcunpack_ia` ends with TypeError right after emptying its index file; `unpack_records` would write no page on Python 3 either.
    Its naming function follows `..` in URLs out of the output directory, to any directory above it; cutting the directory at
    200 characters can leave `..` at the end, too; the URL's extension is always replaced by that of the content type,
    contrary to the comment in the code, because a pair is compared with a text (C73).
23. A record with a negative Content-Length makes warc2warc and warcfilter stop with ValueError: after writing its head and the whole
    rest of the file for -1, after its head for other numbers; with -1 and an empty rest the copy succeeds but cannot be copied again (C74, C75).
24. A folded header whose first line is empty is copied with a blank before its value; only the second copy is stable (C75).
25. The offset told for an ARC record behind a line of blanks is that of the blank line, not of the record (C77).
26. An ARC file whose filedesc names a single field admits no white space in its records' heads: any separator raises (C77).
27. An ARC record without a usable Archive-length is handed out, and if its content is not read the reader takes the content's lines for heads (C78).
28. Dates of 6 to 13 digits are accepted with fields of one digit: `2020131` is read as 31 January 2020 and `2020111111` as 2020-11-01T01:01:01 (C52).
29. arc2warc converts an ARC record without a usable Archive-length by taking the whole rest of the file, further records included, for its content (C79).
30. warclinks cannot be imported since Python 3.5, and prints no link on 3.3 and 3.4 (C80).
31. Its link extractor: one link that `urlparse` refuses (such as `http://[`) loses all links of the page; `mailto:` and `javascript:` links, which have no host,
    get the scheme, host and directory of the base; `#top` and `?q` become the directory of the base instead of the page; a refresh `5; url=...` with a blank behind the
    semicolon is not recognised and a refresh URL ends at its first equals sign (C81).
32. warc2warc ignores `-o` and always writes to standard output; its option for the chunking bug of wget has no effect on Python 3, as header names (bytes) are compared with texts.
33. `arc2warc -o` raises TypeError at the first filedesc record, `--resource`/`--response` at the first ARC record: with them nothing is ever converted (C82). A line end in
    an option or the host name adds lines to the warcinfo record.
34. `write_to(f, gzip=True)` fails with OSError on files opened 'r+b' or 'w+b' (and temporary files): GzipFile takes the mode 'rb+' for reading (C83).
35. When writing a compressed record raises, CPython finishes the gzip member on throwing the GzipFile away: the file then holds a valid member with a part of a record (C20).
36. When feed() raises, the rest of that text is lost without notice, though the parser can go on: the refused line stays in get_message(), everything else goes as if it had not been there (C85).
37. A gzip body that cannot be unpacked leaves the message stuck (every further feed raises an unrelated ValueError), and close() then calls it complete with an empty body (C85). A Content-Length that is no number makes
    the headers impossible to complete (C85).
38. After write_to of a record with a content file, `content` is empty, and write_to then writes an empty record instead of raising (C86).
39. After a part of `content_file` was read, write_to writes the remaining bytes under the old Content-Length: the output is not a valid archive (C86).
40. A response parser whose headers are complete before the request's start line was read treats a HEAD request like any other: the next response on the connection is taken for a body (C87_too_late_refuted).
41. list(stream), or reading two records before asking for content, loses payloads silently: content then is another record's payload or empty, content_length still announces the header's length, and write_to writes records whose Content-Length their (empty) payload contradicts. The docstring calls this undefined; no error is raised (C88_too_late, C88_after_the_end, C88_copied_after_the_end).
42. `GzipRecordStream.seek` ("does it always work?") does not work once a record has been read, before the end is reached: setting `_new_member` on the `GzipFile` has had no effect since Python 3.5, and the decompressor goes on with what it has taken in, for an archive of up to 8192 bytes all of it. Iterating after `seek(0)` in the middle gives the rest of the archive and then the whole archive (C89_seek_after_reading); in a larger one a member may be cut and continued with bytes from elsewhere.
43. `set_start_line` assigns before it checks: after a refused status line such as `ICY yes ok` the attribute `code` is the byte string `b'yes'` (so `code >= 400` raises TypeError), and after a refused `CONNECT host` the request has method, target and version although no request line was read (C90).
44. Writing a record whose content was not read before the stream was closed puts the head of the record (version line, headers, blank line) into the output before it raises, again with every attempt; for a compressed output it becomes a gzip member. In a compressed archive `stream.close()` closes only the GzipFile: the file that `open_archive(filename=...)` opened below it stays open until it is collected (C91; the latter is read off the code, the file below is not modelled).
45. An ARC record whose length is missing or no number: asking for its content takes everything up to the end of the file, so that the records behind it are lost; not asking for it makes them records (C92).
46. The index of a compressed archive cannot be used: warcindex prints None for every offset, and warcpayload and warcextract raise ValueError on it. The length
    in warcpayload's argument has no effect on local files (C94).
47. Nothing can be read from S3: `s3.open_url` collects the object in an `io.StringIO`, which refuses the bytes boto writes (TypeError); an object with no bytes
    fails one step later. Every tool given an s3: name that lists a key ends with an exception; warcvalid calls such archives invalid (C95).
48. `Codes.internal_server_error` is 501 and `Codes.requested_range_not_satisfiable` 415; 500 and 416 have no name (C96).
49. `errors if errors else []`: a record made with an empty list does not hold the list it was given, so that error() does not reach the caller's list; made with a
    non-empty one it does, and error() on one record shows in every record made from that list (C97).
50. `for a in stream: for b in stream: ...` hands the first record to the outer loop and all others to the inner one: the iterators share one position (C98).
51. `warcfilter pattern` without an option rewrites what it selects (C47); with `Content-Type` and `content-type` in one record that changes which is found first, so it
  does not commute with `-C`, and a second run writes other bytes than the first (C99).
52. Copying a compressed archive that is cut off leaves a torn record at the end of the copy: its head and a multiple of 8192 bytes of its payload, with the Content-Length
  of the whole; a program that catches the exception and goes on writing puts the next record inside that payload (C69).
53. `write_to(newline=...)` takes any byte string: LF gives files the library reads, warcvalid rejects and warc2warc repairs byte for byte; CR alone, CR CR LF or an empty
  string give files on which reading raises TypeError; a doubled newline gives records that come back without headers and content (C100).
54. On a compressed archive that is cut off, `warcfilter -u/-T/-d` can leave a torn record at the end of its output, plain `warcfilter pattern` cannot: it reads a record into
  memory before writing it (C69).

## 7. Testing the theorems

`seeded/LOG.jsonl`: one line per seeded bug (definition, edit, claim broken, theorems that failed, theorems tightened).
`seeded/run.py` applies each mutation to a scratch copy and rebuilds with `make -k`; `seeded/gen*.py` hold the mutations.
Tightened after survivors: C56, C57, C61, C62_error_lines_tell_apart and C63 were added because mutations of iteration, `keep_alive`, `warcpayload`, the error lines and the record limit went unnoticed at first;
C17_content_file_read_then_written because a record's own content file left open went unnoticed;
C73_url_parts, C73_extension_from_url, C73_index_file and C73_loop_any_file because mutations of names, of the index file and of the loop in warcunpack_ia did.
