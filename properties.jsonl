{"id": "C01", "title": "One WARC record survives write then read", "statement": "For every WARC version the library knows, every list of headers whose names and values fit on one line, every content type and every payload (any bytes, including newlines and text that looks like a record), writing the record with write_to and reading it back with read_records yields exactly one record with the same version, the same headers in order (any supplied Content-Type/Content-Length replaced by the true ones at the end), the same content type, the same payload, and no errors.", "quantifier": "all versions, header lists, content types and payload byte strings", "why_tests_cant": "The claim ranges over unboundedly many byte strings; tests sample a handful of literals.", "anchors": ["hanzo/warctools/warc.py:WarcRecord._write_to", "hanzo/warctools/warc.py:WarcParser.parse", "hanzo/warctools/stream.py:RecordStream._read_record"]}
{"id": "C02", "title": "A whole archive survives write then read", "statement": "Appending any number of records one after another to a file and then iterating the file, or calling read_records(limit=None), yields exactly those records in the same order and with the same contents, followed by a clean end of archive (no record, no errors); nothing is lost, duplicated or merged.", "quantifier": "all finite sequences of well-formed records", "why_tests_cant": "Sequences and payloads are unbounded; framing mistakes typically show only for particular payload/next-record combinations.", "anchors": ["hanzo/warctools/stream.py:RecordStream.read_records", "hanzo/warctools/stream.py:RecordStream.__iter__", "hanzo/warctools/warc.py:WarcRecord._write_to"]}
{"id": "C03", "title": "Offsets are exact and can be seeked to", "statement": "For an uncompressed archive, the offset reported for each record is the byte position where that record's version line starts, and the offset reported at the end is the file length. Seeking a stream that has no unread payload left (nothing read yet, or the payload of the last record read to its end) to a reported offset and reading one record gives that same record. Seeking while payload of an earlier record is still unread does not: the pending bytes are skipped from the new position, so another item is read.", "quantifier": "all archives, all record indexes", "why_tests_cant": "Needs to hold for every preceding history of records and payload sizes.", "anchors": ["hanzo/warctools/stream.py:RecordStream._read_record", "hanzo/warctools/stream.py:RecordStream.seek", "hanzo/warctools/warc.py:WarcParser.parse"]}
{"id": "C04", "title": "Payload reads stay inside the record", "statement": "After a record is read from an intact archive, any sequence of read(n), read(), readline(n) and readline() calls with non-negative limits on its content_file returns consecutive pieces of that record's payload: their concatenation is a prefix of the payload, and once the payload is used up every call returns empty.", "quantifier": "all payloads, all finite sequences of content reads", "why_tests_cant": "The property is about arbitrary interleavings of calls with arbitrary sizes.", "anchors": ["hanzo/warctools/stream.py:RecordStream.read", "hanzo/warctools/stream.py:RecordStream.readline", "hanzo/warctools/record.py:ArchiveRecord.content_file"]}
{"id": "C05", "title": "Partial consumption never disturbs the next record", "statement": "Whatever part of a record's payload the caller has consumed (nothing, some, or all of it, by any mix of non-negative reads), the next record read from the stream is the same, with the same offset.", "quantifier": "all archives and all finite sequences of content reads between two record reads", "why_tests_cant": "Quantifies over all call histories.", "anchors": ["hanzo/warctools/stream.py:RecordStream._skip_to_eoc", "hanzo/warctools/stream.py:RecordStream._read_record"]}
{"id": "C06", "title": "Any newline-only terminator is accepted between records", "statement": "Records may be separated by any string consisting only of CR and LF bytes and ending in LF (or by nothing at all): the same records are read, with offsets pointing at the first byte after the separator.", "quantifier": "all separator strings over {CR, LF} ending in LF, any records", "why_tests_cant": "The existing test tries fifteen separators out of infinitely many.", "anchors": ["hanzo/warctools/stream.py:RecordStream._read_record"]}
{"id": "C07", "title": "A truncated payload is detected", "statement": "If the file ends before the payload of a record is complete, then the attempt to read the following record raises an exception, whatever part of the payload was consumed before; the truncated data is never taken for the start of another record.", "quantifier": "all records, all cut points inside the payload, all consumption histories with non-negative reads", "why_tests_cant": "Every crash point must be covered.", "anchors": ["hanzo/warctools/stream.py:RecordStream._skip_to_eoc"]}
{"id": "C08", "title": "Outcome of reading a record cut at any byte", "statement": "For a record written by the library whose header values hold no CR and whose Content-Length headers are natural numbers, cut after any number of bytes, reading it has exactly one of these outcomes, determined by the cut point: clean end of file (nothing written), one error and no record (cut inside the version line), non-termination (cut inside a header line before its CR), a record with the headers that are complete and an empty payload (cut at a header line boundary before the Content-Length line), the same with one error (cut between CR and LF of the version line or of a header line), or a full record whose truncated payload is detected on the next read (cut in the payload). In particular a cut at a header boundary is accepted silently and a cut inside a header line makes the reader hang.", "quantifier": "all well-formed records, all cut points", "why_tests_cant": "Every crash point of every record must be covered; the hanging and the silent cases are exactly the ones a test suite misses.", "anchors": ["hanzo/warctools/warc.py:WarcParser.parse"]}
{"id": "C09", "title": "Reading a record terminates exactly when every header line has a colon and a line end", "statement": "Reading a WARC record terminates for an input if and only if no line of the record's header block, other than a blank line or a continuation line, lacks a colon or a line end; otherwise the reader loops for ever without consuming input.", "quantifier": "all byte strings", "why_tests_cant": "Non-termination is not observable by a finite test, and termination must hold for every input.", "anchors": ["hanzo/warctools/warc.py:WarcParser.parse"]}
{"id": "C10", "title": "Leading junk lines are tolerated up to five", "statement": "Before a version line the reader skips blank lines and at most five other lines, each of which is reported as an error on the record; when a sixth junk line is met it gives up with no record and a list of seven errors. The reported offset is the position of the version line.", "quantifier": "all sequences of junk lines followed by any record", "why_tests_cant": "The claim ranges over unboundedly many byte strings; tests sample a handful of literals.", "anchors": ["hanzo/warctools/warc.py:WarcParser.parse"]}
{"id": "C11", "title": "A version line is found behind any prefix", "statement": "If other bytes precede the WARC version on its line, the record is still read, the prefix is reported as an error and the reported offset is the position just after the prefix.", "quantifier": "all prefixes without newline that do not themselves contain a version stamp", "why_tests_cant": "The claim ranges over unboundedly many byte strings; tests sample a handful of literals.", "anchors": ["hanzo/warctools/warc.py:WarcParser.parse", "hanzo/warctools/warc.py:version_rx"]}
{"id": "C12", "title": "Unknown WARC versions abort the reader", "statement": "For every version number other than 1.0, 0.17 and 0.18, reading the record raises TypeError instead of returning a record with an error: no record of such an archive (for instance WARC/1.1) can be read.", "quantifier": "all version strings", "why_tests_cant": "The claim ranges over unboundedly many byte strings; tests sample a handful of literals.", "anchors": ["hanzo/warctools/warc.py:WarcParser.parse", "hanzo/warctools/warc.py:WarcParser.KNOWN_VERSIONS"]}
{"id": "C13", "title": "Folded header lines are joined by single spaces", "statement": "A header followed by any number of continuation lines (lines starting with white space) is read as one header whose value is the stripped pieces joined by single spaces; the order of headers is preserved.", "quantifier": "all header values and continuation pieces", "why_tests_cant": "The claim ranges over unboundedly many byte strings; tests sample a handful of literals.", "anchors": ["hanzo/warctools/warc.py:WarcParser.parse", "hanzo/warctools/warc.py:value_rx"]}
{"id": "C14", "title": "Header lookup is case-insensitive and returns the first match", "statement": "get_header(name) returns the value of the first header whose name equals name up to ASCII case, and None exactly when there is no such header; url, type, date and id agree with it.", "quantifier": "all header lists and names", "why_tests_cant": "The claim ranges over unboundedly many byte strings; tests sample a handful of literals.", "anchors": ["hanzo/warctools/record.py:ArchiveRecord.get_header"]}
{"id": "C15", "title": "set_header replaces one exact name and leaves the rest", "statement": "set_header(name, value) leaves exactly one header with exactly that name, holding the value, at the end, and keeps every other header in order. A following get_header(name) returns the value if and only if no earlier header has the same name in different case (or happens to hold an equal value).", "quantifier": "all header lists, names, values", "why_tests_cant": "The claim ranges over unboundedly many byte strings; tests sample a handful of literals.", "anchors": ["hanzo/warctools/record.py:ArchiveRecord.set_header"]}
{"id": "C16", "title": "The written Content-Length and Content-Type come from the content", "statement": "When a record carries a content tuple, the last Content-Length written is the decimal length of the payload and equals the number of payload bytes written, and supplied headers spelled exactly Content-Type or Content-Length are not written. Supplied headers that differ in case are still written, so the output can carry two contradictory lengths.", "quantifier": "all header lists and contents", "why_tests_cant": "The claim ranges over unboundedly many byte strings; tests sample a handful of literals.", "anchors": ["hanzo/warctools/warc.py:WarcRecord._write_to"]}
{"id": "C17", "title": "Writing from a content file copies it exactly and only once", "statement": "When a record carries a content file, write_to writes all headers unchanged followed by exactly the bytes the file yields, however the file splits them over read calls; a second write_to raises and writes nothing.", "quantifier": "all headers, all file contents and all read schedules", "why_tests_cant": "Quantifies over every short-read schedule of the underlying file.", "anchors": ["hanzo/warctools/warc.py:WarcRecord._write_to", "hanzo/warctools/record.py:ArchiveRecord.write_to"]}
{"id": "C18", "title": "Writing from a content tuple is repeatable", "statement": "When a record carries a content tuple, every write_to appends the same bytes and leaves the record unchanged.", "quantifier": "all records with a content tuple, any number of writes", "why_tests_cant": "Histories of any length.", "anchors": ["hanzo/warctools/record.py:ArchiveRecord.write_to", "hanzo/warctools/warc.py:WarcRecord._write_to"]}
{"id": "C19", "title": "content is read lazily, once", "statement": "For a record just read from an intact archive, the first access of content returns the Content-Type header value and exactly the payload, every later access returns the same pair without reading, and content_file is None from then on; content_length before and after agree when Content-Length appears once.", "quantifier": "all records and payloads", "why_tests_cant": "The claim ranges over unboundedly many byte strings; tests sample a handful of literals.", "anchors": ["hanzo/warctools/record.py:ArchiveRecord.content", "hanzo/warctools/record.py:ArchiveRecord.content_length", "hanzo/warctools/record.py:ArchiveRecord.content_type"]}
{"id": "C20", "title": "Compressed archives hold the same records", "statement": "write_to with gzip appends exactly one gzip member whose contents are the bytes the uncompressed write would produce; an archive of such members, read with record compression, yields the same records, headers and payloads as the uncompressed archive. A write broken off by an exception leaves the compressed form of exactly the bytes the uncompressed write would have left.", "quantifier": "all finite sequences of records; any compressor/decompressor pair that decompresses a sequence of members to the concatenation of their contents", "why_tests_cant": "The claim ranges over unboundedly many byte strings; tests sample a handful of literals.", "anchors": ["hanzo/warctools/record.py:ArchiveRecord.write_to", "hanzo/warctools/stream.py:GzipRecordStream"]}
{"id": "C21", "title": "Compressed archives give no offsets", "statement": "Reading a record-compressed archive reports None as the offset of every record (on the Python versions the project supports), so member offsets are not available.", "quantifier": "all compressed archives and records", "why_tests_cant": "The claim ranges over unboundedly many byte strings; tests sample a handful of literals.", "anchors": ["hanzo/warctools/stream.py:GeeZipFile", "hanzo/warctools/stream.py:GzipRecordStream._read_record"]}
{"id": "C22", "title": "Whole-file gzip mode cannot read", "statement": "A stream opened with gzip='file' never returns an item: for every input, reading a WARC record raises NameError where the same text in an uncompressed file would give an item, and raises (or loops) in the same way where that one does.", "quantifier": "all inputs", "why_tests_cant": "The claim ranges over unboundedly many byte strings; tests sample a handful of literals.", "anchors": ["hanzo/warctools/stream.py:GzipFileStream._read_record"]}
{"id": "C23", "title": "Newline diagnostics are exact", "statement": "A record whose version line, header lines, continuation lines and blank line each end either in CR LF or in LF alone is read with the same headers and payload as with CR LF everywhere, and the errors reported are exactly one per line that ends in LF alone, in order, with one exception: a header with an empty value ('Name:' CR LF) is reported although its line end is right.", "quantifier": "all versions, header lists with continuations, payloads and all assignments of CR LF or LF to lines", "why_tests_cant": "The claim ranges over unboundedly many byte strings; tests sample a handful of literals.", "anchors": ["hanzo/warctools/warc.py:WarcParser.parse"]}
{"id": "C24", "title": "Content-Length is read as Python int() does; negative lengths and limits break the bound", "statement": "The payload length is the integer value of the last valid Content-Length header (0 when there is none; an invalid one is reported as an error). With a non-negative length a whole read returns exactly that many of the following bytes (fewer only at the end of the file); with Content-Length -1 the whole rest of the archive is returned as payload, with other negative lengths a read raises ValueError on buffered files, and nothing is skipped before the next record; an explicit read(-1) returns everything up to the end of the archive, and the records after it are lost.", "quantifier": "all header lists; all following bytes", "why_tests_cant": "The claim ranges over unboundedly many byte strings; tests sample a handful of literals.", "anchors": ["hanzo/warctools/warc.py:WarcParser.parse", "hanzo/warctools/stream.py:RecordStream.read"]}
{"id": "C25", "title": "Type and compression detection never move the file", "statement": "Guessing the record type and testing for gzip leave the file position where it was. The type depends on the first line only (after decompression if the file starts with the gzip magic): a line that starts with a WARC version stamp (optional white space first), an empty line, or a line consisting of LF alone is WARC; a line starting with filedesc:// is ARC; anything else is rejected with an exception. Compression is detected exactly by the two magic bytes 1f 8b.", "quantifier": "all file contents and positions", "why_tests_cant": "The claim ranges over unboundedly many byte strings; tests sample a handful of literals.", "anchors": ["hanzo/warctools/archive_detect.py:guess_record_type", "hanzo/warctools/archive_detect.py:is_gzip_file", "hanzo/warctools/stream.py:open_record_stream"]}
{"id": "C26", "title": "An ARC archive is read completely", "statement": "Reading an ARC file made of filedesc records and any number of records, separated by any newline-only separators ending in LF, yields every record in order, each with the header fields named by the preceding filedesc, its exact content bytes and its exact offset, then a clean end; partial reads of the content do not disturb the following records and a truncated content is detected. The header values must be separable: at each single separating space the neighbouring bytes must make the reader's word-boundary split apply, and only the first field may contain spaces.", "quantifier": "all sequences of ARC records with separable header fields", "why_tests_cant": "The claim ranges over unboundedly many byte strings; tests sample a handful of literals.", "anchors": ["hanzo/warctools/arc.py:ArcParser.parse", "hanzo/warctools/arc.py:ArcParser.parse_header_list"]}
{"id": "C27", "title": "The raw filedesc record is reproduced", "statement": "For the filedesc record of an ARC file, raw() returns exactly the bytes of that record in the file (header line, version line, field-name line and the rest of its content).", "quantifier": "all filedesc records", "why_tests_cant": "The claim ranges over unboundedly many byte strings; tests sample a handful of literals.", "anchors": ["hanzo/warctools/arc.py:ArcRecordHeader.raw", "hanzo/warctools/arc.py:ArcParser.parse"]}
{"id": "C28", "title": "ARC header fields pair up with the declared names", "statement": "Every ARC record returned by the reader has exactly the declared field names, in order, each with one value, and the values put together with single white-space bytes give the header line back. A header line with fewer white-space bytes than fields minus one raises TypeError. Spaces inside the first field (the URL) are kept in it when the other values have none.", "quantifier": "all header lines and all field name lists", "why_tests_cant": "The claim ranges over unboundedly many byte strings; tests sample a handful of literals.", "anchors": ["hanzo/warctools/arc.py:ArcParser.parse_header_list"]}
{"id": "C29", "title": "ARC records before a filedesc are refused", "statement": "Reading an ARC record before any filedesc record has been read raises an exception, and input of white space only gives a clean end.", "quantifier": "all first lines", "why_tests_cant": "The claim ranges over unboundedly many byte strings; tests sample a handful of literals.", "anchors": ["hanzo/warctools/arc.py:ArcParser.parse"]}
{"id": "C30", "title": "Mixed reading agrees with the specific readers", "statement": "Each read through MixedRecord does what the WARC reader does if the next line that is not blank starts with WARC, and what the ARC reader does otherwise. Hence a WARC archive, an ARC archive none of whose header lines starts with WARC, and any interleaving of the two, are read completely and in order with the same records, contents and offsets as with the specific readers.", "quantifier": "all archives", "why_tests_cant": "The claim ranges over unboundedly many byte strings; tests sample a handful of literals.", "anchors": ["hanzo/warctools/mixed.py:MixedParser.parse"]}
{"id": "C31", "title": "HTTP parsing loses and invents no bytes", "statement": "For messages that are not gzip content-encoded with a Content-Length: every feed call that raises no exception returns a suffix of the bytes it was given, and get_message() is exactly the concatenation of what the calls used; so get_message() followed by the returned text equals everything that was fed (with returned text fed again).", "quantifier": "all byte strings, all ways of splitting them over feed calls", "why_tests_cant": "Quantifies over all schedules of network reads.", "anchors": ["hanzo/httptools/messaging.py:HTTPMessage.feed", "hanzo/httptools/messaging.py:HTTPMessage.feed_line", "hanzo/httptools/messaging.py:HTTPMessage.feed_length"]}
{"id": "C32", "title": "HTTP parsing does not depend on how the input is split", "statement": "Feeding a message in any number of pieces gives the same parser state, the same completion status, the same body and the same unread remainder as feeding it whole, provided it does not start with a blank line, is not gzip-encoded with a length, and its first chunk-size line is valid. Without each of these provisos the result does depend on the split.", "quantifier": "all byte strings and all splits", "why_tests_cant": "All schedules.", "anchors": ["hanzo/httptools/messaging.py:HTTPMessage.feed", "hanzo/httptools/messaging.py:ChunkReader", "hanzo/httptools/messaging.py:LengthReader"]}
{"id": "C33", "title": "Content-Length bodies are exact", "statement": "For a message with a decimal Content-Length n that may have a body and has no gzip encoding, fed in any pieces: it completes exactly when n body bytes have been fed, get_body() is exactly those n bytes, and everything after is returned as remainder; with fewer bytes it stays incomplete, also after close(), with the received part as body. A Content-Length that is no integer raises ValueError.", "quantifier": "all header blocks, bodies and trailing bytes", "why_tests_cant": "The claim ranges over unboundedly many byte strings; tests sample a handful of literals.", "anchors": ["hanzo/httptools/messaging.py:LengthReader", "hanzo/httptools/messaging.py:HTTPMessage.get_body"]}
{"id": "C34", "title": "Chunked bodies are decoded exactly", "statement": "For a message with chunked transfer encoding, for every list of non-empty chunks with any valid hexadecimal size spelling and chunk extensions and any trailer lines, feeding it completes the message, get_body() is the concatenation of the chunks, the trailers are recorded in order and the bytes after the message are returned as remainder.", "quantifier": "all chunk lists, size spellings, extensions, trailers, trailing bytes", "why_tests_cant": "The claim ranges over unboundedly many byte strings; tests sample a handful of literals.", "anchors": ["hanzo/httptools/messaging.py:ChunkReader"]}
{"id": "C35", "title": "Messages that cannot have a body complete at the blank line", "statement": "Responses to HEAD and responses with status 1xx (other than 100), 204 or 304, and requests with neither Content-Length nor chunked encoding, complete at the end of their headers whatever the headers say (provided Content-Length is an integer), with an empty body; every later byte is remainder.", "quantifier": "all header blocks and following bytes", "why_tests_cant": "The claim ranges over unboundedly many byte strings; tests sample a handful of literals.", "anchors": ["hanzo/httptools/messaging.py:ResponseHeader.has_body", "hanzo/httptools/messaging.py:RequestHeader.has_body", "hanzo/httptools/semantics.py:Codes.no_body"]}
{"id": "C36", "title": "Close-delimited bodies run to the end of input", "statement": "A response that may have a body, without Content-Length or chunked encoding, is complete only after close(), and its body is everything fed after the headers.", "quantifier": "all bodies and splits", "why_tests_cant": "The claim ranges over unboundedly many byte strings; tests sample a handful of literals.", "anchors": ["hanzo/httptools/messaging.py:HTTPMessage.feed", "hanzo/httptools/messaging.py:HTTPMessage.close"]}
{"id": "C37", "title": "An interim 100 response is skipped", "statement": "A response stream consisting of a 100 response followed by a final response, fed in any pieces, ends in the state of the final response alone with the interim response recorded (but the list of headers to ignore is forgotten); a second 100 response fed together with the first is not skipped but taken for the final response.", "quantifier": "all interim header blocks and final responses", "why_tests_cant": "The claim ranges over unboundedly many byte strings; tests sample a handful of literals.", "anchors": ["hanzo/httptools/messaging.py:ResponseMessage.feed"]}
{"id": "C38", "title": "A decoded message parses back to the same response", "statement": "For a completed response without content encoding, with status code >= 0, header values without surrounding white space and no negative chunk lengths: get_decoded_message() parsed by a new response parser (same request), in any pieces, completes with no remainder, with the same version, status code and phrase, the same body, and the same headers except that length, transfer and trailer headers are replaced by one Content-Length and trailers follow the headers. A response that cannot have a body keeps all its headers. With a content encoding that can be undone the Content-Length written is that of the coded body, so the decoded message parses back with its body cut there.", "quantifier": "all completed responses with single-line headers", "why_tests_cant": "The claim ranges over unboundedly many byte strings; tests sample a handful of literals.", "anchors": ["hanzo/httptools/messaging.py:HTTPMessage.get_decoded_message", "hanzo/httptools/messaging.py:HTTPHeader.write_headers"]}
{"id": "C39", "title": "Gzip-encoded bodies with a length are replaced and depend on the split", "statement": "For a gzip content-encoded message with Content-Length: when headers and body arrive in one feed call the stored body is the decompressed data, any following bytes are dropped, and the decoded message still announces the coding; when the data is not gzip data the whole rest of the call becomes the body; truncated data raises; when the headers arrive alone the message completes at once with an empty body and takes none of the bytes that follow.", "quantifier": "all such messages; any decompressor", "why_tests_cant": "The claim ranges over unboundedly many byte strings; tests sample a handful of literals.", "anchors": ["hanzo/httptools/messaging.py:ZipLengthReader", "hanzo/httptools/messaging.py:HTTPMessage.write_decoded_message"]}
{"id": "C40", "title": "Feeding terminates unless a chunk size is negative", "statement": "feed returns or raises for every input and every parser state reached by feeding unless a chunk-size line holds a negative number and is followed by more input, in which case it never returns.", "quantifier": "all parser states and inputs", "why_tests_cant": "Non-termination cannot be observed by a finite test.", "anchors": ["hanzo/httptools/messaging.py:ChunkReader.feed", "hanzo/httptools/messaging.py:ChunkReader.feed_chunk"]}
{"id": "C41", "title": "close() reports incomplete messages and clips the body", "statement": "After close(), complete() is true exactly when the message had ended or its body was close-delimited; otherwise get_body() is the part of the body that was received.", "quantifier": "all inputs and cut points", "why_tests_cant": "Every cut point must be covered.", "anchors": ["hanzo/httptools/messaging.py:HTTPMessage.close"]}
{"id": "C42", "title": "A body falsely declared chunked is kept as is", "statement": "If the first chunk-size line of a chunked message is invalid and arrives whole at the start of one feed call (with or after the headers), the entire rest of the input becomes the body, unchanged, ended by close(); if the line arrives split over two calls, feed raises ValueError.", "quantifier": "all bodies whose first line is not a chunk size", "why_tests_cant": "The claim ranges over unboundedly many byte strings; tests sample a handful of literals.", "anchors": ["hanzo/httptools/messaging.py:ChunkReader.feed_start", "hanzo/httptools/messaging.py:HTTPMessage.feed"]}
{"id": "C43", "title": "HTTP headers are kept in order with folding", "statement": "The header list after the header block is exactly the list of name/value pairs of the block in order, stripped, with continuation lines appended after one space; chunked mode, content length, content encoding and expect-continue are taken from the headers not among those to ignore, chunked taking precedence over Content-Length. A header line without a colon raises ValueError and a continuation line directly after the start line raises IndexError.", "quantifier": "all header blocks", "why_tests_cant": "The claim ranges over unboundedly many byte strings; tests sample a handful of literals.", "anchors": ["hanzo/httptools/messaging.py:HTTPHeader.add_header_line"]}
{"id": "C44", "title": "Following feed_predict never over-reads", "statement": "If every piece fed is no longer than feed_predict asks for (a line up to its newline, or at most the given number of bytes), then feed never returns a remainder.", "quantifier": "all messages and all histories that follow the prediction", "why_tests_cant": "All schedules that follow the protocol.", "anchors": ["hanzo/httptools/messaging.py:HTTPMessage.feed_predict", "hanzo/httptools/messaging.py:ChunkReader.feed_predict", "hanzo/httptools/messaging.py:LengthReader.feed_predict"]}
{"id": "C45", "title": "warc2warc is the identity on canonical archives", "statement": "Without -D, warc2warc writes, for any list of intact archives (compressed or not), the canonical form of every record, in order (CR LF lines, 'Name: value' headers, CR LF CR LF terminator); hence it writes a byte-for-byte copy of an archive in canonical form, and compressing with -Z and expanding again gives the canonical archive. Archives with other line ends, folded headers, junk lines or prefixes before the version are also made canonical.", "quantifier": "all lists of archives, all accepted layouts", "why_tests_cant": "The claim ranges over unboundedly many byte strings; tests sample a handful of literals.", "anchors": ["hanzo/warc2warc.py:process", "hanzo/warc2warc.py:main"]}
{"id": "C46", "title": "warc2warc -D cannot write a decoded record", "statement": "With -D, the first response record with content type application/http;msgtype=response whose content is exactly one complete HTTP response makes the tool raise AttributeError, after the records before it have been written and without writing anything more; records that are not of this kind are copied, response records in the form made from their payload (Content-Type and Content-Length headers moved to the end and recomputed).", "quantifier": "all archives", "why_tests_cant": "The claim ranges over unboundedly many byte strings; tests sample a handful of literals.", "anchors": ["hanzo/warc2warc.py:process"]}
{"id": "C47", "title": "warcfilter selects exactly the matching records", "statement": "With -U, -T, -C or -D, warcfilter writes exactly the records whose field matches (with -i exactly those that do not; an absent or empty field never matches), in order, each in canonical form; without these options it writes exactly those with a matching header value or payload, with the Content-Type and Content-Length headers moved to the end; the outputs with and without -i partition the archive. With -H it considers only response records with an application/http content type and matches the media type of the HTTP response; a response record without content type, or whose HTTP message is incomplete or followed by more bytes, ends the run with an exception after the records before it.", "quantifier": "all archives, all patterns (as predicates)", "why_tests_cant": "The claim ranges over unboundedly many byte strings; tests sample a handful of literals.", "anchors": ["hanzo/warcfilter.py:filter_archive"]}
{"id": "C48", "title": "warcvalid accepts only clean archives", "statement": "warcvalid returns 0 if and only if every file is read to its end without an exception, without errors at the end and without errors on any record, and otherwise -1 if it returns at all; every intact archive and everything written by the library is accepted, every archive whose last payload is truncated is rejected, and an archive in another accepted layout is rejected exactly if some record carries a layout error. A file that ends between two header lines before the Content-Length is accepted. For every text in a plain or compressed file, one of three things happens: it returns 0, exactly if the text is a sequence of records without remarks, each with the whole of its declared payload, followed by blank lines only; it never returns, exactly if behind such records there is one whose header block has a line without colon or line end; or it returns -1. A file with text but without a WARC version line, such as an ARC file, is rejected.", "quantifier": "all lists of files, all texts", "why_tests_cant": "The claim ranges over unboundedly many byte strings; tests sample a handful of literals.", "anchors": ["hanzo/warcvalid.py:main"]}
{"id": "C49", "title": "warcindex lists every record and its offset works with warcextract", "statement": "For any list of intact archives whose records' first Content-Length header is the true one, warcindex prints the header line and one line per record, in order, with file name, exact offset (None when compressed), type, URL, id, content type ('-' when absent or empty) and payload length, and warcextract at that offset of an uncompressed archive prints exactly that record's payload. Records written from a content tuple meet the condition unless the caller supplied a differently spelled Content-Length.", "quantifier": "all archives and indexes", "why_tests_cant": "The claim ranges over unboundedly many byte strings; tests sample a handful of literals.", "anchors": ["hanzo/warcindex.py:main", "hanzo/warcextract.py:main"]}
{"id": "C50", "title": "arc2warc preserves every record's content", "statement": "For any list of readable ARC or mixed archives, arc2warc used with byte-string prefixes and without -o writes a warcinfo and a metadata record for each filedesc and one record per ARC record, in order, and copies WARC records; reading its output back gives exactly these records, and each ARC record's URL, date, IP address (when not 0.0.0.0) and content bytes, linked to the id of the last warcinfo. Two captures with equal URL and date get the same record id. A record before any filedesc, and every conversion with -o, raises TypeError when written; a record without URL or date raises TypeError.", "quantifier": "all ARC archives, any id function", "why_tests_cant": "The claim ranges over unboundedly many byte strings; tests sample a handful of literals.", "anchors": ["hanzo/arc2warc.py:ArcTransformer.convert", "hanzo/arc2warc.py:main"]}
{"id": "C51", "title": "arc2warc chooses the record type by rule", "statement": "The record type is resource or response according to: resource prefixes, then response prefixes (both compared with the lower-cased URL), then for http URLs response exactly if the content is one complete HTTP response and resource otherwise, else response - also for dns: URLs; a complete HTTP response of an http URL is given the http response content type, everything else keeps its content type (application/octet-stream when blank). Prefixes given on the command line are text strings and make the first record raise TypeError; what the HTTP parser raises on an http record ends the conversion.", "quantifier": "all URLs, content types and contents", "why_tests_cant": "The claim ranges over unboundedly many byte strings; tests sample a handful of literals.", "anchors": ["hanzo/arc2warc.py:ArcTransformer.convert_record"]}
{"id": "C52", "title": "ARC dates become WARC dates of the same instant", "statement": "Every valid 14-digit ARC date YYYYMMDDhhmmss is converted to YYYY-MM-DDThh:mm:ssZ with the same digits, and every valid 8-digit date to midnight of that day; 14- and 8-byte strings that are no valid date (the day may be a space and a digit), and dates of 1 to 5 or more than 14 bytes, raise ValueError. A date of twelve digits (year to minute) is misread: its two minute digits become minute and second. Dates with fewer digits are read with fields of one or two digits; every date has at most one way of reading, and it is the first that fits, each field taking two digits if that lets the rest be read.", "quantifier": "all date strings, of ARC records and of filedesc records", "why_tests_cant": "Tests cannot enumerate all dates.", "anchors": ["hanzo/arc2warc.py:ArcTransformer.convert_record", "hanzo/warctools/warc.py:warc_datetime_str"]}
{"id": "C53", "title": "Record factories produce readable records", "statement": "make_response, make_request, make_metadata and make_conversion give records with the stated type, id, date, url and optional link, which survive write and read.", "quantifier": "all one-line ids, dates, urls and contents", "why_tests_cant": "The claim ranges over unboundedly many byte strings; tests sample a handful of literals.", "anchors": ["hanzo/warctools/warc.py:make_response", "hanzo/warctools/warc.py:make_request", "hanzo/warctools/warc.py:make_metadata", "hanzo/warctools/warc.py:make_conversion"]}
{"id": "C54", "title": "S3 listing yields every key once", "statement": "list_files on s3://bucket/prefix (bucket without / ? #, prefix without ? #) yields exactly the keys under the prefix, in order, once each, for every page size of the server, and terminates; while the bucket changes during the listing, it yields nothing twice, nothing that was never there, and every key that was there all the time. A listed name opens exactly that key unless the key contains ? or #, in which case it opens the part before.", "quantifier": "all sorted key lists, all histories of the bucket, all positive page sizes", "why_tests_cant": "All pagination histories.", "anchors": ["hanzo/warctools/s3.py:list_files"]}
{"id": "C55", "title": "S3 range reads ask for one byte too many", "statement": "For offset and length given, the byte range requested covers length + 1 bytes starting at offset; with an offset alone it covers everything from there; a length without an offset is ignored.", "quantifier": "all offsets and lengths", "why_tests_cant": "The claim ranges over unboundedly many byte strings; tests sample a handful of literals.", "anchors": ["hanzo/warctools/s3.py:open_url"]}
{"id": "C56", "title": "Iterating over an archive never ends silently on unreadable text", "statement": "A `for record in stream` loop ends normally only when the reader has just reported a clean end (no record and no errors). After an intact archive followed by text in which no record starts and which is not blank, iteration hands out every record and then raises, and read_records(limit=None) hands out every record and then exactly one item without a record that lists the junk lines (all of them if at most five, otherwise the first six and 'too many errors'). If reading the rest of the file raises, iteration hands out the records before it and raises the same exception.", "quantifier": "all streams, all loop bodies; all archives and all junk tails", "why_tests_cant": "the junk and the archive are unbounded; tests sample a few broken files", "anchors": ["hanzo/warctools/stream.py:RecordStream.__iter__", "hanzo/warctools/stream.py:RecordStream.read_records", "hanzo/warctools/warc.py:WarcParser.parse"]}
{"id": "C57", "title": "keep_alive follows the last Connection header", "statement": "After the blank line of an HTTP head, keep_alive is True exactly when the last Connection header (names in any case, not among ignore_headers) that contains keep-alive or close (any case) contains keep-alive; without such a header it is False, for HTTP/1.1 as well as HTTP/1.0.", "quantifier": "all message heads, all ignore lists", "why_tests_cant": "any number of headers in any order and spelling", "anchors": ["hanzo/httptools/messaging.py:HTTPHeader.add_header_line", "hanzo/httptools/messaging.py:ResponseHeader.set_start_line"]}
{"id": "C58", "title": "Request targets: host, port, scheme, target and url", "statement": "For every request head, method, target and version are those of the request line; for an absolute http(s) URL the target is its path (the text string '/' when there is none, so that the decoded message cannot be written: TypeError) and host, port (80 when absent, also for https) and scheme come from the URL; for CONNECT host:port they come from the target. A later Host header replaces the host (and the port, as bytes, when it has a colon): the last one decides the host, the last one with a colon the port, with folded lines counted once. The url attribute is never the URL once host and target have been read, because byte strings are formatted as b'...'.", "quantifier": "all request lines of the three forms, all header lists with folding", "why_tests_cant": "unbounded header lists and targets; the regular expression must be considered on all URLs", "anchors": ["hanzo/httptools/messaging.py:RequestHeader", "hanzo/httptools/messaging.py:url_rx"]}
{"id": "C59", "title": "Reading depends only on the bytes from the current position on", "statement": "For WARC, ARC and mixed readers (plain or compressed per record), reading records and payloads from a file positioned at byte n gives exactly what it gives on a file that holds only the bytes from n on, except that all reported offsets are larger by n. So any preface before the starting position, of any content, changes nothing but offsets, and warcextract at offset n prints what it prints for the cut file at offset 0.", "quantifier": "all files, all positions, all parser states, all interleavings of partial payload reads", "why_tests_cant": "the prefaces, files and read sequences are unbounded", "anchors": ["hanzo/warctools/stream.py:RecordStream", "hanzo/warctools/warc.py:WarcParser.parse", "hanzo/warctools/arc.py:ArcParser.parse", "hanzo/warctools/mixed.py:MixedParser.parse", "hanzo/warcextract.py:main"]}
{"id": "C60", "title": "Reading loops and tools terminate unless the reader hangs", "statement": "A loop over read_records or over the stream that reads any amount of each payload ends on every WARC file, unless some suffix of the file is text on which the header reader loops for ever; on ARC files it always ends. Every write_to ends. warcvalid, warcindex, warcdump, warcextract, warcpayload (if the HTTP client returns), warc2warc without -D and warcfilter without -H end on every list of files without such text; warc2warc -D, warcfilter -H and arc2warc end if, moreover, no part of the files makes the HTTP parser hang. Reading mixed files ends on such files, too.", "quantifier": "all files (well-formed or not), all starting positions, all loop bodies that only read, all limits", "why_tests_cant": "termination on all files is not observable by any finite test", "anchors": ["hanzo/warctools/stream.py:RecordStream.read_records", "hanzo/warctools/stream.py:RecordStream.__iter__", "hanzo/warctools/record.py:ArchiveRecord.write_to", "hanzo/warcvalid.py:main", "hanzo/warcindex.py:main", "hanzo/warc2warc.py:main"]}
{"id": "C61", "title": "warcpayload and warcextract at any offset", "statement": "At the offset of a record (for instance the one the index gives), warcpayload prints that record's payload: for HTTP responses what the HTTP client of the standard library makes of the stored message, otherwise the content. At an offset behind which no record starts it prints nothing, ends normally when there is nothing but blank lines, and otherwise raises NameError (the variable name is not defined) instead of reporting the errors; warcextract likewise, where the offset counts bytes of the stored file, compressed or not, and the start of the file decides whether it is compressed. A negative offset raises.", "quantifier": "all archives, all records in them, all texts without a record", "why_tests_cant": "unbounded archives, offsets and texts", "anchors": ["hanzo/warcpayload.py:main", "hanzo/warcextract.py:main", "hanzo/warctools/stream.py:GzipRecordStream.seek"]}
{"id": "C62", "title": "Dumping records", "statement": "record.dump() prints the headers as stored and a preview of the content: one line of printable ASCII and tabs whatever the content, equal to the content when that is plain, made from the first 1024 bytes only, the numbers of other bytes readable back (but two contents of equal length may look the same). With dump(content=False) the payload stays unread. Dumping twice prints the same. warcdump over complete archives prints one heading per record with its file and offset, then that dump; on a record without Content-Type it stops with AttributeError after its headers, on a record read with remarks it stops with TypeError after 'Errors:', and junk after the records is reported with different lines for different errors.", "quantifier": "all records, all contents, all lists of archives", "why_tests_cant": "unbounded contents and archives", "anchors": ["hanzo/warctools/record.py:ArchiveRecord.dump", "hanzo/warcdump.py:main", "hanzo/warcdump.py:dump_archive"]}
{"id": "C63", "title": "Reading in instalments", "statement": "A loop over read_records(limit=n) hands out at most n items: n records, or fewer records and then one item without a record. Taking the loop up again on the same stream, with any further limit or none, goes on exactly as one loop with the sum of the limits would have, whatever part of each payload was read in between. A larger limit does not change a loop that ended before its limit or raised.", "quantifier": "all streams (any file, any parser, any position), all limits, all amounts of payload read", "why_tests_cant": "unbounded files, limits and plans of reading", "anchors": ["hanzo/warctools/stream.py:RecordStream.read_records", "hanzo/warctools/stream.py:RecordStream._skip_to_eoc"]}
{"id": "C64", "title": "Writing when the output fails", "statement": "The calls write_to makes on its output add up to the text it is said to write. When the output runs full after n bytes, write_to raises OSError and exactly the first n bytes of that text are stored; when the text fits, the run is the same. After such a failure a record holding its content as a pair is unchanged, and writing it again writes the whole text. A record whose content comes from a file or from an archive being read can be written again without an error, but the part of the content already read - at least one byte more than was stored - is missing from the second text while its Content-Length header still counts it.", "quantifier": "all records, all amounts of room, all ways the content file splits its data", "why_tests_cant": "a crash point at every byte of every record", "anchors": ["hanzo/warctools/record.py:ArchiveRecord.write_to", "hanzo/warctools/warc.py:WarcRecord._write_to"]}
{"id": "C65", "title": "A record stream cannot be written to", "statement": "stream.write(record) raises AttributeError for every WARC record that write_to would write, built or read, and for every byte string; nothing is written and the stream's position and pending payload are unchanged. ARC records are accepted and silently dropped.", "quantifier": "all streams, all records", "why_tests_cant": "all records and stream states", "anchors": ["hanzo/warctools/stream.py:RecordStream.write", "hanzo/warctools/record.py:ArchiveRecord.write_to"]}
{"id": "C66", "title": "readinto", "statement": "Inside a payload, readinto(b) overwrites the start of b with as much of the unread payload as fits, keeps the rest and the size of b, returns the number of bytes and leaves the stream where read(len(b)) would. Any mixture of read, readline and readinto returns consecutive pieces of the payload; draining with a buffer of any non-zero size gives exactly the payload. After a record announcing Content-Length -1, readinto takes the rest of the file whatever the buffer's size: a bytearray grows, a memoryview raises ValueError.", "quantifier": "all payloads, all buffers, all sequences of calls", "why_tests_cant": "unbounded payloads and sequences of calls", "anchors": ["hanzo/warctools/stream.py:RecordStream.readinto", "hanzo/warctools/stream.py:RecordStream.read"]}
{"id": "C67", "title": "HTTP/0.9 responses", "statement": "The HTTP/0.9 view of a response (as_http09), taken in any state, gives as message, body and decoded message all bytes the response had stored followed by all bytes fed since, however split and also after close; nothing is left over; it is complete exactly when closed; response and view share their bytes. An answer without status line makes feed raise ValueError as soon as its first line is complete; the view made then has that line and what is fed later, but what followed the line in the same piece is lost; while no newline has come nothing is lost. write_message always raises AttributeError; the view's CONTENT_TYPE is a text that shows a byte string.", "quantifier": "all responses in any state, all answers, all splits and orders of feeding", "why_tests_cant": "unbounded inputs and histories", "anchors": ["hanzo/httptools/messaging.py:ResponseMessage.as_http09", "hanzo/httptools/messaging.py:HTTP09Response.feed", "hanzo/httptools/messaging.py:HTTPMessage.feed_start", "hanzo/httptools/messaging.py:HTTPMessage.write_message"]}
{"id": "C68", "title": "Feeding an HTTP message from a file", "statement": "feed_fd(file) on a new message, or wherever a line is expected, raises AttributeError without reading anything. On a message in the middle of a body of known length it reads exactly the missing bytes, after which the message is complete with the right body and the file stands behind them; if the file ends before, or if the body ends with the connection, feed_fd never returns. On a complete message it reads nothing.", "quantifier": "all messages, all parts of bodies, all files", "why_tests_cant": "non-termination and unbounded bodies", "anchors": ["hanzo/httptools/messaging.py:HTTPMessage.feed_fd", "hanzo/httptools/messaging.py:HTTPMessage.feed_predict"]}
{"id": "C69", "title": "Reading when the file's read calls fail; cut compressed archives", "statement": "If calls on the underlying file fail at some point (I/O error; compressed archive cut off or damaged, where GzipFile raises), a loop over read_records with any limit and any reads of contents sees exactly what it would see of the intact archive as far as the unreadable part is not needed for it, then gets the failure's exception; nothing is invented, skipped or cut short silently. Of a well-formed compressed WARC file of which only the first k bytes can be decompressed, every record whose head lies in these k bytes is handed out, its content if that lies in them too, then the exception follows. Such a loop ends normally only after an item that reports too many junk lines; copying the records writes a beginning of what the intact archive gives and always raises - of a well-formed WARC file exactly the records that lie in the k bytes, and of the next, if its head does, the head and the whole 8192-byte pieces of payload that are there, without a terminator; warcvalid rejects the copy exactly if there is such a torn record, else it is a valid archive of the first records only; warcvalid never reports such an archive as valid. warcfilter, warcindex and warcdump on such files write a beginning of what they would write of the intact one, then the exception ends them; of a well-formed WARC file of which k bytes can be decompressed, warcfilter (any option but -H) writes exactly the selected records among those that lie in the k bytes and, if the next one is selected and its head is there, that head and the whole 8192-byte pieces of its payload - nothing of it if no option is given or -C meets a record without Content-Type; warcindex lists exactly the records up to the first one whose head - or, if type or length are not in the head, whose payload - is not in the k bytes. The file warcfilter leaves is a valid archive of selected records, or ends in that torn record and is rejected by warcvalid; the latter never happens without an option. warcdump (records with a Content-Type) prints all of the records that lie in the k bytes and, if the head of the next one is there, its headers but nothing of its content, even if all but one byte of it is there. warc2warc with any of -Z and -D on a failing file writes what it would write of the intact one and ends alike, or raises the failure's exception; on such a cut file (with -D: records -D does not stop at) it writes the records that lie in the k bytes, and the torn one as when copying - under -Z what an unfinished member leaves of it -, except that under -D nothing is written of a torn response. The file warc2warc leaves (without -Z) is a valid archive of the records there, or ends in that torn record, never a response under -D, and is rejected by warcvalid.", "quantifier": "all archives (WARC, ARC, mixed), all places where the readable part ends, all exceptions, all limits and adaptive sequences of read/readline calls, all files whose calls succeed as usual or fail", "why_tests_cant": "every cut point and every failure pattern of every archive", "anchors": ["hanzo/warctools/stream.py:RecordStream._read_record", "hanzo/warctools/stream.py:GzipRecordStream", "hanzo/warctools/stream.py:RecordStream.read", "hanzo/warctools/stream.py:RecordStream._skip_to_eoc", "hanzo/warctools/warc.py:WarcParser.parse", "hanzo/warctools/arc.py:ArcParser.parse", "hanzo/warctools/mixed.py:MixedParser", "hanzo/warcvalid.py", "hanzo/warc2warc.py", "hanzo/warcfilter.py:filter_archive", "hanzo/warcindex.py:main", "hanzo/warcdump.py:dump_archive", "hanzo/warctools/record.py:ArchiveRecord.dump"]}
{"id": "C70", "title": "Record identifiers and digests", "statement": "warc_uuid(text) (and the converter's make_warc_uuid) is <urn:uuid:8-4-4-4-12> with the lower-case hexadecimal digits of the first sixteen bytes of the text's SHA-1 digest; two texts get the same identifier exactly when these bytes agree. random_warc_uuid() has the digits of sixteen random bytes with the version digit 4 and a variant digit 8, 9, a or b; two are the same exactly when the random bytes agree in the other 122 bits. Both are usable as header values: they survive writing and reading, so a converted archive reads back record by record. block_digest(content) is sha256: and the digits of the SHA-256 digest, the same for two contents exactly when their digests are; it is a text, so a record given it as a header value raises TypeError in the middle of that header when it is written.", "quantifier": "all texts, contents, random bytes and hash functions with the output length of SHA-1; all headers around the digest", "why_tests_cant": "equality and inequality over all pairs of texts and all random bytes", "anchors": ["hanzo/warctools/warc.py:WarcRecord.warc_uuid", "hanzo/warctools/warc.py:WarcRecord.random_warc_uuid", "hanzo/warctools/warc.py:WarcRecord.block_digest", "hanzo/warctools/warc.py:WarcRecord._write_to", "hanzo/arc2warc.py:ArcTransformer.make_warc_uuid"]}
{"id": "C71", "title": "Every text has exactly one reading", "statement": "Any text whatsoever, in a plain or compressed file, is for the WARC reader one of: a record (at most five lines of junk, a version line of a known version with or without a prefix, header lines with continuation lines, a blank line or the end of the file), whose headers, remarks, declared length and offset are given by its lines; a text that makes the reader hang; one with an unknown version (TypeError); one without a version line within its first lines. No text can be read as a record in two ways. Iterating over a whole file gives the items and the end that follow from reading it so, record after record, where a payload is what the declared length says (nothing if it is negative), and an exception if the file is shorter.", "quantifier": "all byte strings, both kinds of file, offsets on and off", "why_tests_cant": "ranges over all texts, including every malformed one, with an exhaustive case distinction", "anchors": ["hanzo/warctools/warc.py:WarcParser.parse", "hanzo/warctools/stream.py:RecordStream.read_records", "hanzo/warctools/stream.py:RecordStream._read_record", "hanzo/warctools/stream.py:RecordStream._skip_to_eoc"]}
{"id": "C72", "title": "Handles that give text instead of bytes", "statement": "Reading a record from a handle opened in text mode (such as sys.stdin) calls readline once (and tell once before, if offsets are wanted) and then raises TypeError, whatever the text is; so warcdump, warcextract, warc2warc and warcfilter without file arguments end with TypeError at the first line and write nothing. Detecting compression ('auto') on such a handle raises the handle's own error unless it is empty, and guessing the archive class raises TypeError after one line. On a handle that gives bytes the same code behaves exactly as described by the other properties.", "quantifier": "all handles (any behaviour of readline, read, tell, seek), all texts on them", "why_tests_cant": "ranges over every text on standard input and every behaviour of the handle", "anchors": ["hanzo/warctools/stream.py:open_record_stream", "hanzo/warctools/stream.py:RecordStream._read_record", "hanzo/warctools/archive_detect.py:is_gzip_file", "hanzo/warctools/archive_detect.py:guess_record_type", "hanzo/warcdump.py:main", "hanzo/warcextract.py:main", "hanzo/warc2warc.py:main", "hanzo/warcfilter.py:main"]}
{"id": "C73", "title": "Where warcunpack_ia writes pages", "statement": "The file chosen for a page never exists already, so the pages of a run go to different files and overwrite nothing; the search for a free name ends once there are more identifiers than files and not before one of the names is free. Its directory is reached by following the URL's directories from the output directory, cut at 200 characters: if the URL's .. never lead above it and the path is short enough, the file is below the output directory under an ordinary name of at most 45 characters (before the collision suffix) plus long extensions; otherwise a URL can place it in any directory above. In the URL without its first :// every other character than letters, digits and _-/. becomes _, and the parts between slashes are the directories (empty ones left out) and the file name. If the content type has a known extension the file has that one, whatever the URL's was; without a content type it is what follows the last dot of the file name, or .html. The script as a whole ends with TypeError on Python 3, after emptying its index file (the log file, or NAME.index.txt in the output directory), and writes no page; its loop over records goes on behind any record, so a complete archive is gone through to its end.", "quantifier": "all URLs, content types, output directories, file systems, identifier sequences, all archives", "why_tests_cant": "ranges over all URLs and all states of the file system, and over unboundedly long collision searches", "anchors": ["warcunpack_ia.py:output_file", "warcunpack_ia.py:unpack_records", "warcunpack_ia.py:main"]}
{"id": "C74", "title": "warc2warc and warcfilter on any file whatsoever", "statement": "For every file content - junk, truncated, mislabelled lengths, any bytes - and every combination of options, what warc2warc and warcfilter write and how they end is determined by the readings of the text: for each record in turn the tool writes its canonical copy, its copy from memory, or nothing, as the options say; stops with the error of the decoding step, with ValueError for a negative Content-Length, with the reader's error at junk or a short payload; goes on behind the payload otherwise; hangs exactly where the header block has a line the reader cannot take; and nothing written before the end of the run is lost.", "quantifier": "all file contents, plain and gzipped, all lists of files, all options, search patterns and oracles for the HTTP decompressors", "why_tests_cant": "arbitrary bytes: the claim characterises output and ending for every possible text, not only for well-formed archives", "anchors": ["hanzo/warc2warc.py:process", "hanzo/warc2warc.py:main", "hanzo/warcfilter.py:filter_archive", "hanzo/warctools/stream.py:RecordStream.__iter__", "hanzo/warctools/warc.py:WarcRecord._write_to"]}
{"id": "C75", "title": "Copying a copy", "statement": "warc2warc ends normally on a file exactly if it is a sequence of complete records (blank lines and up to five junk lines before each, blank lines at the end; a last record with nothing behind its head may declare length -1), and then writes these records in canonical form. Copying the copy writes the same records with white space around header values removed, or fails with ValueError if a record declared a negative length; and whatever the first file was, a copy of a copy is copied byte for byte.", "quantifier": "all file contents, plain and gzipped", "why_tests_cant": "the fixed point must be reached for every possible text, including folded headers, odd spacing and numbers in any notation Python accepts", "anchors": ["hanzo/warc2warc.py:main", "hanzo/warctools/warc.py:WarcRecord._write_to", "hanzo/warctools/warc.py:WarcParser.parse"]}
{"id": "C76", "title": "warcindex, warcdump, warcextract and warcpayload on any file whatsoever", "statement": "For every file content and every start offset, what warcindex, warcdump, warcextract and warcpayload print and how they end is determined by the readings of the text: warcindex prints one line per record with the byte offset at which its version line really stands (none for a compressed file), the Content-Length header as a number or the payload's length; warcdump prints header lines and payload per record and stops at a record without a Content-Type or with parse errors; warcextract and warcpayload write the payload (or, for an HTTP response, the message body) of exactly the first record at or behind the offset, nothing if there is none, and end with an error when junk is found first.", "quantifier": "all file contents, plain and gzipped, all lists of files, all offsets, all HTTP clients", "why_tests_cant": "arbitrary bytes and arbitrary offsets, also in the middle of a record", "anchors": ["hanzo/warcindex.py:main", "hanzo/warcdump.py:dump_archive", "hanzo/warcextract.py:dump_record", "hanzo/warcpayload.py:dump_payload_from_stream", "hanzo/warctools/stream.py:RecordStream.read_records"]}
{"id": "C77", "title": "What the ARC reader makes of any text whatsoever", "statement": "For every text and whatever field names are in force, exactly one of these happens, and the reader answers accordingly: only blank lines are left and no record is returned; the first line that is not blank is taken for a record's head and split at the white-space bytes next to a letter, digit or underscore - as many as there are fields; the last ones if there are more and the first field is URL or Content-type, the first ones otherwise - and the record has one value per field name and the content length its Archive-length field says, if it is a number; a filedesc line sets the version and the field names from the next two lines and its content is shortened by them; or the reader raises: for a record before any filedesc, for too few fields, for a filedesc without a version or a length. The stream then stands right behind the head, and the offset told is that of the first line that is not just a line end.", "quantifier": "all texts, all field names in force, plain and gzipped readers, offsets asked for or not", "why_tests_cant": "arbitrary bytes: the claim gives the reader's answer for every possible text and every set of field names", "anchors": ["hanzo/warctools/arc.py:ArcParser.parse", "hanzo/warctools/arc.py:ArcParser.parse_header_list", "hanzo/warctools/arc.py:ArcParser.get_content_headers", "hanzo/warctools/stream.py:RecordStream._read_record"]}
{"id": "C78", "title": "Iterating over any file with the ARC reader and with the reader for mixed files", "statement": "For every text, read_records() of an ARC reader or of a mixed reader hands out exactly the items given by taking the text apart record by record: a mixed reader treats a record as WARC if and only if the first line that is not just a line end starts with WARC, and as ARC otherwise, and field names set by a filedesc record stay in force across WARC records; content nobody reads is skipped, a record cut short ends the iteration with an exception, and behind a record whose length is not known the next record is looked for right behind the head. Every text has exactly one such run.", "quantifier": "all texts, all field names in force, both readers, plain and gzipped, offsets asked for or not", "why_tests_cant": "arbitrary bytes and arbitrarily many records of both kinds in any order", "anchors": ["hanzo/warctools/mixed.py:MixedParser.parse", "hanzo/warctools/arc.py:ArcParser.parse", "hanzo/warctools/stream.py:RecordStream.read_records", "hanzo/warctools/stream.py:RecordStream._skip_to_eoc"]}
{"id": "C79", "title": "What arc2warc makes of any files whatsoever", "statement": "For all files, plain or compressed, in any mixture of ARC and WARC records, well formed or not, exactly one output and one ending are possible, and arc2warc gives them: every record found is turned into WARC records (filedesc: a warcinfo and a metadata record; ARC record: one response or resource record whose content is what its length says, or the rest of the file if the length is unknown; WARC record: copied), with the id of the last warcinfo record, the fields known and the date read; it stops with an exception, keeping what was written so far, at a record before any filedesc, a missing URL, date or content type, a date that cannot be read, a content cut short or of a length below -1, a prefix that is not a byte string, an HTTP message that cannot be parsed, and junk between records. What was learnt from one file (the warcinfo id) is kept in the next, the field names are not.", "quantifier": "all lists of files and contents, decompressors, clocks, id functions, output names, prefixes, compressed output or not", "why_tests_cant": "arbitrary bytes in arbitrarily many files: the claim gives the whole output for every possible input", "anchors": ["hanzo/arc2warc.py:ArcTransformer.convert", "hanzo/arc2warc.py:ArcTransformer.convert_filedesc", "hanzo/arc2warc.py:ArcTransformer.convert_record", "hanzo/arc2warc.py:main", "hanzo/warctools/mixed.py:MixedParser.parse"]}
{"id": "C80", "title": "What warclinks prints and returns", "statement": "On the Python versions on which it can be imported (3.3, 3.4), warclinks never prints a link, whatever the files hold: the test of each response's content type raises and is caught. It reads the content of every record, goes on behind a record that raises, and returns minus the number of files that could not be opened or gone through to their end (complete archives: 0); it never stops at a bad file, and it runs for ever exactly when the reader does on one of the files.", "quantifier": "all lists of files (or names that cannot be opened), all contents, plain or compressed, all decompressors", "why_tests_cant": "arbitrary bytes in arbitrarily many files: no test shows that no input makes it print", "anchors": ["hanzo/warclinks.py:main", "hanzo/warclinks.py:extract_links_from_warcfh"]}
{"id": "C81", "title": "Which links a page has, and what they are made into", "statement": "LinkParser finds the links of a page in the order of its start tags and attributes: the non-empty values of the attributes in its table (a/href, img/src, ...), and of meta/content the texts after url= between semicolons, up to the next equals sign and stripped; the last non-empty href of a base tag, wherever it stands, is the base of all links. get_abs_links gives exactly one URL per link, in order, each depending on the base and that link only: a link with a host is kept as it is; otherwise scheme and host are the base's, and path, parameters and query the link's (no fragment), where a path without leading slash is put below the base's directory, one directory higher for every leading ../ but never above the root, ./ being dropped. It always ends, and fails exactly if the base or some link cannot be parsed; then no link of the page is given.", "quantifier": "all sequences of start tags with any attributes, all bases and links, all URL parsers (urlparse/urlunparse as parameters), base paths of any depth and any number of ../ and ./", "why_tests_cant": "pages, paths and chains of ../ of any length; the claim compares every link with what the base makes of it", "anchors": ["hanzo/warclinks.py:LinkParser", "hanzo/warclinks.py:LinkParser.get_abs_links", "hanzo/warclinks.py:LinkParser.handle_starttag", "hanzo/warclinks.py:meta_extractor", "hanzo/warclinks.py:attr_extractor"]}
{"id": "C82", "title": "The options of arc2warc", "statement": "The warcinfo record made by arc2warc consists of exactly six CRLF-separated lines: the software, then host name, --description, --operator, --publisher and --audience in UTF-8, which can be read back from it uniquely if they hold no line ends; it cannot be made exactly if one of them holds a surrogate (an argument that is not UTF-8). Without -o everything goes to standard output and no file is touched; with -o the output is appended to the file (created first, even if there is nothing to do), so that nothing the file held is ever lost however the run ends. The output is compressed exactly with -Z or a name ending in .gz. With -o the run succeeds only if every record of the files is a WARC record (nothing is converted), and with --resource or --response only if no file holds an ARC record other than filedesc.", "quantifier": "all option values, host names, files and contents, old contents of the output file, decompressors, compressors, clocks, id functions", "why_tests_cant": "all texts as options, all archives: that no input at all is converted with -o is a claim about every file", "anchors": ["hanzo/arc2warc.py:main", "hanzo/arc2warc.py:warcinfo_fields", "hanzo/arc2warc.py:ArcTransformer.convert_filedesc"]}
{"id": "C83", "title": "Which outputs take compressed records", "statement": "write_to(out, gzip=True) works over outputs that have no attribute mode and over those whose mode is a text starting with w, a or x, and does there what the plain write does, compressed. Over any other output - among them files opened 'r+b' or 'w+b', temporary files, and GzipFile objects - writing a WARC record raises (OSError, ValueError or AttributeError), although the plain write may work; then nothing reaches the output, and record and stream are unchanged, so that the record can still be written elsewhere.", "quantifier": "all outputs (by their attribute mode), records, streams, newlines, compressors", "why_tests_cant": "all records and all kinds of outputs; the tests use two kinds", "anchors": ["hanzo/warctools/record.py:ArchiveRecord.write_to"]}
{"id": "C84", "title": "What the HTTP parser makes of any bytes whatsoever", "statement": "For every byte string fed to a new RequestMessage or ResponseMessage, whether it is HTTP or not, feed() raises, loops or returns exactly as a grammar of the text says, and then complete(), headers_complete(), get_body(), get_message(), the start line's attributes, headers, trailers, keep_alive, expect_continue, the interim responses and the bytes given back are those the grammar assigns. The grammar covers blank and unreadable start lines, absolute URLs and CONNECT, folded lines, lines without a colon, unreadable and negative lengths, gzip coding, chunk sizes, broken chunks and trailers, and an interim 100. The grammar assigns one outcome to every text. A first feed() raises nothing but ValueError, IndexError or what the decompressor raised on a part of the text.", "quantifier": "all byte strings, requests and responses (with every request method), ignored header lists, decompressors", "why_tests_cant": "all byte strings, including those that are not HTTP", "anchors": ["hanzo/httptools/messaging.py:HTTPMessage.feed", "hanzo/httptools/messaging.py:ChunkReader", "hanzo/httptools/messaging.py:LengthReader", "hanzo/httptools/messaging.py:ZipLengthReader", "hanzo/httptools/messaging.py:HTTPHeader", "hanzo/httptools/messaging.py:RequestHeader", "hanzo/httptools/messaging.py:ResponseHeader", "hanzo/httptools/messaging.py:ResponseMessage.feed"]}
{"id": "C85", "title": "What a feed() that raised leaves behind", "statement": "After any calls of feed() on a RequestMessage or ResponseMessage, some of which raised, a call that raises has used its text up to and including a line end and lost the rest of that text; the parser keeps the phase, start line, fields, trailers, interim responses and body it had before that line end, and get_message() has grown by exactly the text used. So get_message() is always the text that was used. A refused start line, field, chunk size or trailer is refused in the same way however it is cut into pieces, and afterwards everything goes as if it had never been fed, for all further calls and exceptions, except that it stays in the message text. A Content-Length that is no number is final: no further line but a continuation completes the headers, every blank line raises ValueError again. A gzip body that cannot be unpacked is final: each further text raises ValueError and changes nothing, the body is empty, close() calls the message complete.", "quantifier": "all histories of calls of feed() on one message (any texts, any exceptions before), requests and responses, ignored header lists, decompressors", "why_tests_cant": "all texts, histories of failing calls and ways of cutting the text", "anchors": ["hanzo/httptools/messaging.py:HTTPMessage.feed", "hanzo/httptools/messaging.py:HTTPMessage.feed_line", "hanzo/httptools/messaging.py:HTTPMessage.feed_start", "hanzo/httptools/messaging.py:HTTPMessage.feed_headers", "hanzo/httptools/messaging.py:HTTPMessage.close", "hanzo/httptools/messaging.py:HTTPHeader.add_header_line", "hanzo/httptools/messaging.py:HTTPHeader.add_trailer_line", "hanzo/httptools/messaging.py:ChunkReader", "hanzo/httptools/messaging.py:ZipLengthReader", "hanzo/httptools/messaging.py:ResponseMessage.feed"]}
{"id": "C86", "title": "One record object and any history of calls", "statement": "For every record made with WarcRecord(...) or read from a file, and every sequence of calls on it (content, content_type, content_length, get_header, set_header, content_file.read, assigning content_file, write_to with or without gzip), each call returns, raises and writes what a small state machine (headers, known content, what is left of the content file, written or not) says, and the next record of the file is read as if the record had not been touched. Consequences: what content has once returned never changes; each byte of the content file is handed out at most once and in order; a record with a content file is written once, with the headers as they then are and what is left of the file, and every further write_to raises and writes nothing until the content is asked for or a file assigned; assigning a file makes it writable again; when content is asked for first every write succeeds and writes the whole payload under its true length. Not so good: after a write, content is empty and the record is then written again without complaint as an empty one; after a part of content_file was read, write_to announces a length its content does not have.", "quantifier": "all records, files (with short reads), sequences of calls and arguments, compressors", "why_tests_cant": "all sequences of calls", "anchors": ["hanzo/warctools/record.py:ArchiveRecord.content", "hanzo/warctools/record.py:ArchiveRecord.content_file", "hanzo/warctools/record.py:ArchiveRecord.content_type", "hanzo/warctools/record.py:ArchiveRecord.content_length", "hanzo/warctools/record.py:ArchiveRecord.write_to", "hanzo/warctools/record.py:ArchiveRecord.set_header", "hanzo/warctools/warc.py:WarcRecord._write_to"]}
{"id": "C87", "title": "Several messages on a connection", "statement": "(1) Pipelining: when messages are put one behind the other on a connection and the bytes arrive in arbitrary pieces, a caller that feeds each piece, starts a new parser whenever one is complete and goes on with what feed returned, ends up with exactly these messages (each as if it had been fed alone and whole) and with a parser that holds the beginning of the next one; a complete message is never changed by what follows it, which feed hands back unread. (2) A ResponseMessage looks the method up in the RequestMessage it was made for, at the moment it has read its headers. Whatever feed and close calls on the two are interleaved in whatever order and pieces, also with calls that raise, the request behaves as if the response were not there; and the response behaves as a parser that was told the method from the start, provided the request's start line had been read when the response's headers were complete (which matters only for HEAD), in particular whenever the start line is read before the response gets its first byte. Otherwise a response to HEAD is read with a body and swallows the next response.", "quantifier": "all sequences of messages, all cuts of their bytes into pieces, all interleavings of calls on the two parsers", "why_tests_cant": "all cuts and interleavings", "anchors": ["hanzo/httptools/messaging.py:HTTPMessage.feed", "hanzo/httptools/messaging.py:HTTPMessage.close", "hanzo/httptools/messaging.py:ResponseHeader.method", "hanzo/httptools/messaging.py:ResponseHeader.has_body", "hanzo/httptools/messaging.py:ResponseMessage.feed"]}
{"id": "C88", "title": "Keeping the records of a stream while reading on", "statement": "The records read from a stream have the stream itself for content file. For every history of reading on and of calls (content, content_type, content_length, headers, content_file.read, a new content_file, write_to) on any of the records read so far: (1) the k-th step of the loop gives the k-th record of the archive, with its headers and offset, and then the end, whatever was called, read, written or raised in between; (2) a record whose content is asked for before the next record is read has its own payload, and keeps it for ever; (3) asked later, the first record asked gets what is left of the payload of the last record read, under its own type, and all others nothing, without an error; (4) once the end has been reached, as after list(stream), content is empty for every record, reading gives nothing, content_length goes on announcing the length in the header, and write_to writes each record with its old Content-Length and no payload.", "quantifier": "all well-formed archives, plain or gzipped by record, and all histories of calls on all records", "why_tests_cant": "all archives and all interleavings of calls", "anchors": ["hanzo/warctools/record.py:ArchiveRecord.content_file", "hanzo/warctools/record.py:ArchiveRecord.content", "hanzo/warctools/record.py:ArchiveRecord.write_to", "hanzo/warctools/stream.py:RecordStream.read_records", "hanzo/warctools/stream.py:RecordStream._read_record", "hanzo/warctools/stream.py:RecordStream.read"]}
{"id": "C89", "title": "Seeking in a compressed archive", "statement": "On a record-compressed stream seek(offset) moves the compressed file below a decompressor that has already taken compressed bytes in. For every archive with one gzip member per record and every history of reading records (and any reads inside them) and seeking to beginnings of records: a record handed out is always the first of those taken in and not yet handed out, and a seek changes only where the decompressor takes more from. So a seek before the first read, or after the end was reported, is honoured; in between it is not: the records taken in still come first, in order, whatever offsets are seeked to, and then those from the offset on.", "quantifier": "all archives of gzip members, all histories of reads and seeks, all amounts of compressed data taken in by the decompressor while a call runs", "why_tests_cant": "all histories, and the effect depends on how far the decompressor has read ahead; small test archives are taken in at once", "anchors": ["hanzo/warctools/stream.py:GzipRecordStream.seek", "hanzo/warctools/stream.py:GzipRecordStream._read_record", "hanzo/warctools/stream.py:GeeZipFile"]}
{"id": "C90", "title": "The attributes of a message at any time", "statement": "Whatever is fed to a message in whatever pieces, whether some of the calls raised, and whether close() was called: as long as no start line has been accepted, the attributes are those of a new message, or, where lines were refused after they had been split, those such a line gave: a refused CONNECT line gives method, target_uri and version, a refused status line version and phrase, and as code a byte string. Once a start line was accepted, method, target_uri, version, host, port and scheme (version, code and phrase of a response) are what the first accepted line says, except that host is that of the last Host field read so far and port that of the last one with a port. When the head is read, code is an integer.", "quantifier": "all sequences of feed and close calls, returning or raising, all bytes, all sets of ignored headers", "why_tests_cant": "all byte sequences, all ways to cut them, any number of refused calls before", "anchors": ["hanzo/httptools/messaging.py:RequestHeader.set_start_line", "hanzo/httptools/messaging.py:RequestHeader.add_header", "hanzo/httptools/messaging.py:ResponseHeader.set_start_line", "hanzo/httptools/messaging.py:HTTPMessage.feed_start", "hanzo/httptools/messaging.py:HTTPMessage.feed_headers"]}
{"id": "C91", "title": "After close()", "statement": "After stream.close(), or record.content_file.close() on a record whose content is still in the stream, whatever was read and called before: reading on raises ValueError and gives no record; a record whose content was asked for before keeps answering with the same content; a record whose content was not asked for still answers for its headers, and for type and length as far as headers hold them, but its content is lost: the first request raises ValueError, every later one AttributeError, reading its content file raises ValueError, and writing it raises ValueError each time after the version line, the headers and the blank line have gone to the output (an ARC record still writes nothing without an error). Records with a file of the caller's, or with known content, behave as ever. Closing again is allowed.", "quantifier": "all archives (well-formed or not, WARC, ARC and mixed, plain or compressed), all histories of reading and of calls on all the records read before closing, all histories of calls after it, all output newlines and compressors", "why_tests_cant": "all bytes in the archive and all histories of calls on any number of records before and after closing", "anchors": ["hanzo/warctools/stream.py:RecordStream.close", "hanzo/warctools/stream.py:RecordStream._read_record", "hanzo/warctools/record.py:ArchiveRecord.content", "hanzo/warctools/record.py:ArchiveRecord.content_file", "hanzo/warctools/record.py:ArchiveRecord.write_to", "hanzo/warctools/warc.py:WarcRecord._write_to"]}
{"id": "C92", "title": "Keeping the records of any file while reading on", "statement": "For any file at all, read with the WARC, the ARC or the mixed reader, in any history of reading on and of calls on any of the records read: as long as every record read declares a length that is not negative, reading on gives the same records, offsets, errors and exceptions as a loop that does nothing else, whatever is called in between; a record's content, asked for before the next record is read, is the payload its length declares (what there is of it, if the file is cut short) and stays so for ever; in a cut file every further attempt to read on raises, and takes nothing back. A record for which no length is known gives the whole rest of the file as its content, and then no record is left; if its content is not asked for, reading goes on behind its head.", "quantifier": "all byte strings as files, plain or with compressed records, all three readers, all histories of read_record and of calls on all records read so far", "why_tests_cant": "all files and all interleavings of calls", "anchors": ["hanzo/warctools/stream.py:RecordStream._read_record", "hanzo/warctools/stream.py:RecordStream._skip_to_eoc", "hanzo/warctools/stream.py:RecordStream.read", "hanzo/warctools/record.py:ArchiveRecord.content", "hanzo/warctools/arc.py:ArcParser.parse", "hanzo/warctools/warc.py:WarcParser.parse", "hanzo/warctools/mixed.py:MixedRecordParser.parse"]}
{"id": "C93", "title": "What a response says about its request", "statement": "While a request and its response are being parsed, in any interleaving of feed and close on either, calls that raised included, asking a response (or one of its interim responses) for url, scheme, method, host or port gives what the request says of itself at that moment, and that is what a request parsed alone from the same calls says; asking changes nothing on either side. An interim response that has not come yet raises IndexError. Every interim response has code 100, a request has no code, and the response's code is the integer its parser decides by as soon as its head is read.", "quantifier": "all histories of feed and close on a request and its response, with questions to the request, the response and any interim response in between; all inputs, all ignore lists", "why_tests_cant": "all interleavings of calls with arbitrary inputs", "anchors": ["hanzo/httptools/messaging.py:HTTPMessage.url", "hanzo/httptools/messaging.py:HTTPMessage.scheme", "hanzo/httptools/messaging.py:HTTPMessage.method", "hanzo/httptools/messaging.py:HTTPMessage.host", "hanzo/httptools/messaging.py:HTTPMessage.port", "hanzo/httptools/messaging.py:RequestHeader.url", "hanzo/httptools/messaging.py:ResponseHeader.url", "hanzo/httptools/messaging.py:ResponseMessage.code", "hanzo/httptools/messaging.py:ResponseMessage.feed"]}
{"id": "C94", "title": "From the index to the record, on the command line", "statement": "Every line warcindex prints for uncompressed archives leads to its record: given as name:offset (or name:offset,length) to warcpayload, or as name and offset to warcextract, exactly that record's payload comes out. For compressed archives every line says offset None, which both tools refuse with ValueError. A file that is missing raises after the lines of the files before it. warcpayload's argument is split at its last colon, so names may contain colons; the length after the comma has no effect on a local file; a malformed argument raises ValueError and a missing one IndexError.", "quantifier": "all archives, all lists of files, all file names, all offsets, all argument texts", "why_tests_cant": "all archives, names and argument strings; two tools in sequence", "anchors": ["hanzo/warcindex.py:main", "hanzo/warcextract.py:main", "hanzo/warcpayload.py:main", "hanzo/warcpayload.py:dump_payload_from_file"]}
{"id": "C95", "title": "Archives named by an s3:// URL", "statement": "No archive can be read from S3: the object is collected in a text buffer, so opening it or reading its first record raises for every object, range, file name, record class and compression mode, and never gives a record. When the service delivers bytes it is TypeError; for an object without any piece TypeError, or OSError if the name ends in .gz; and whatever the service raises is passed on. Every tool that meets such a name ends there, having written what belonged to the local files before it and nothing for the key; the names behind are not looked at, and warcvalid says the archives are not valid. A run ends normally only if no s3: name lists any key, and is then the run over the local names alone. The request asked is that of open_url.", "quantifier": "all URLs, offsets, lengths, answers of the service (pieces of bytes or text, exceptions), listings, lists of names and tool loop bodies", "why_tests_cant": "all answers of a service and all lists of names; a test needs the service", "anchors": ["hanzo/warctools/s3.py:open_url", "hanzo/warctools/stream.py:open_record_stream", "hanzo/warctools/__init__.py:expand_files", "hanzo/warcvalid.py:main", "hanzo/warcindex.py:main", "hanzo/warcextract.py:main", "hanzo/warcpayload.py:main"]}
{"id": "C96", "title": "Names and classes of status codes and methods", "statement": "A number is in the range collection of a class exactly if it has that many hundreds, so every number from 100 to 599 is in exactly one class and no other number in any; asking about something that is not a number raises TypeError. Every named code is in the class it stands with. Names have different codes except unsupported_media_type and requested_range_not_satisfiable (both 415) and internal_server_error and not_implemented (both 501), so 416 and 500 have no name. Codes.no_body holds the informational codes, no_content and not_modified and nothing else, and a parsed response is given a body exactly if its code is not in it and the method it answers is not in Methods.no_body, which is HEAD in capitals only. Cacheable and body-less methods are safe, idempotent ones (as listed) are not.", "quantifier": "all integers, all method names, all response headers", "why_tests_cant": "all integers and byte strings", "anchors": ["httptools/semantics.py:Codes", "httptools/semantics.py:Methods", "httptools/semantics.py:range_collection", "httptools/messaging.py:ResponseHeader.has_body"]}
{"id": "C97", "title": "Records that share lists", "statement": "A record made with headers=h or errors=e holds that very list if it is not empty; made without, with an empty one, or by a parser, it shares with nobody. set_header changes the record it is called on and no list that was there, so no other record and nothing the caller holds, and ends the sharing: in a program that uses headers only through the constructor and set_header, a record's headers depend on its own calls alone, even if many records were made from one list. error() is seen by exactly the records that hold the same list; a record whose error list is its own has exactly the errors of its own calls.", "quantifier": "all histories of making records (from shared, empty, fresh or parsed lists), set_header, error, appending to lists and assigning them", "why_tests_cant": "aliasing over all histories of calls on any number of records", "anchors": ["hanzo/warctools/record.py:ArchiveRecord.__init__", "hanzo/warctools/record.py:ArchiveRecord.set_header", "hanzo/warctools/record.py:ArchiveRecord.error", "hanzo/warctools/warc.py:WarcRecord.__init__"]}
{"id": "C98", "title": "Several iterators over one stream", "statement": "iter(stream) and read_records(limit, offsets) may be made as often as one likes and used side by side, on any file and with any calls on the records in between: making or closing one reads nothing; every next() reads on where the last one on any of them left off, exactly as one loop would, or stops without reading. From an archive the records handed over, whoever gets them, are the first m records in order, each once, with its offset if asked for; an iterator without a limit that was not closed stops only when all records were handed over; with several such iterators the j-th request gets the j-th record. An iterator with limit l gives at most l items (none if l is not positive). One that stopped, raised or was closed stays stopped, and asking it changes nothing.", "quantifier": "all programs of making, advancing and closing any number of iterators of both kinds and of calls on all records; all well-formed archives, and all byte strings as files", "why_tests_cant": "all interleavings of any number of iterators", "anchors": ["hanzo/warctools/stream.py:RecordStream.read_records", "hanzo/warctools/stream.py:RecordStream.__iter__", "hanzo/warctools/stream.py:RecordStream._read_record"]}
{"id": "C99", "title": "Tools in a row", "statement": "What warcfilter writes (-U, -T, -C, -D or no option), saved in a file, is again an archive of well-formed records: warcvalid accepts it with status 0 and warc2warc copies it byte for byte. Two filters by -U, -T, -C or -D in a row write what both patterns select, in order, and the same bytes whichever comes first; the same filter again changes nothing, and the same pattern with -i turned round then leaves nothing. A warc2warc copy before a filter, compressed or not, makes no difference. What arc2warc writes is accepted by warcvalid, copied byte for byte, converted again into the same bytes, and filtered as the converted records are.", "quantifier": "all archives in any number of files, plain or compressed; all patterns (as decidable searches), all pairs of the options -U, -T, -C, -D with and without -i; all tidy ARC/WARC inputs of arc2warc and all its options that name byte prefixes; all compressors the decompressor undoes", "why_tests_cant": "all archives and all pairs of patterns and options", "anchors": ["hanzo/warcfilter.py:main", "hanzo/warc2warc.py:main", "hanzo/arc2warc.py:main", "hanzo/warcvalid.py:main"]}
{"id": "C100", "title": "Writing with another newline", "statement": "record.write_to(out, newline=nl) writes, whatever nl is, the version, each header line, the blank line, the content and the two newlines after it with nl throughout. A file of records written so, each with CR LF or with LF, is read back as what was written, in order, with exact offsets, one remark for each version or header line that ended in LF and no other; warcvalid accepts it exactly if every record was written with CR LF, and warc2warc turns it byte for byte into what CR LF gives. A newline without a LF, or with anything but at most one CR before its first LF, makes a file that cannot be read: reading raises TypeError, or, when the text has no line end at all, takes it for one line of junk. A newline that is a line end followed by the beginning of another loses everything: the record read back has no header and no content.", "quantifier": "all lists of records built with well-formed fields (or content tuples) and all assignments of CR LF or LF to them; for the last sentences all newlines of the kind named and all texts after the record, in plain and compressed files, with and without offsets", "why_tests_cant": "all newlines, all records and all texts after them", "anchors": ["hanzo/warctools/record.py:ArchiveRecord.write_to", "hanzo/warctools/warc.py:WarcRecord._write_to", "hanzo/warctools/warc.py:WarcParser"]}
