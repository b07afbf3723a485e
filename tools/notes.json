{
 "C03": {
  "note": "seek holds when no payload is pending; C03_seek_inside_a_record_refuted is a counterexample and C03_seek_inside_a_record says exactly what happens otherwise"
 },
 "C08": {
  "note": "header values without CR and natural Content-Lengths; the outcome function cut_result is in WarcSpec"
 },
 "C20": {
  "note": "compressor and decompressor are oracles; hypothesis gzip_pair"
 },
 "C22": {
  "note": "NameError form for the WARC parser; no item is ever returned for any parser"
 },
 "C23": {
  "note": "CR LF and LF line ends; the one exception is C23_empty_value_spurious"
 },
 "C26": {
  "note": "fields separable by the code's word-boundary split (joints in ArcSpec)"
 },
 "C30": {
  "note": "ARC header lines starting with WARC are excluded for whole archives; C30_each_read_agrees is unconditional"
 },
 "C32": {
  "note": "orderly excludes exactly the four situations whose dependence on the split is proved in the C32_*_depends_on_split theorems"
 },
 "C38": {
  "note": "also shows that coded bodies get the wrong Content-Length"
 },
 "C39": {
  "note": "decompressor is an oracle"
 },
 "C40": {
  "note": "for parser states reached by feeding"
 },
 "C46": {
  "note": "the code never decodes: record.content has no setter"
 },
 "C47": {
  "note": "the pattern is an oracle (any predicate on bytes)"
 },
 "C49": {
  "note": "condition: the first Content-Length of a record is the true one; met by written records (C49_written_records_are_honest)"
 },
 "C50": {
  "note": "uuid function and clock are oracles; byte prefixes (as from Python), no -o; the failing cases are theorems too"
 },
 "C54": {
  "note": "the S3 service is an environment model: sorted keys, pages after the marker"
 },
 "C58": {
  "note": "for request lines with a path, an absolute http(s) URL or CONNECT host:port"
 },
 "C59": {
  "note": "plain files and per-record gzip with the decompressor as oracle; offsets of compressed files are None"
 },
 "C60": {
  "note": "hangs = text on which the WARC reader diverges from the start of a file (C09 characterises it)"
 },
 "C61": {
  "note": "the HTTP client of the standard library (http.client) is an oracle"
 },
 "C79": {
  "note": "decompression, the clock and the id function are parameters; the input names decide between the plain and the per-record gzip reader (file_holds)"
 },
 "C80": {
  "note": "Python 3.3/3.4; later versions cannot import the module"
 },
 "C81": {
  "note": "on the start tags HTMLParser finds; urlparse and urlunparse are parameters"
 },
 "C82": {
  "note": "files that cannot be opened and standard error are not modelled"
 },
 "C83": {
  "note": "GzipFile's constructor and the mode of file objects as in CPython 3.5 to 3.12"
 },
 "C84": {
  "note": "the first call of feed(); for a text in several pieces C32 says when the pieces do not matter"
 }
}