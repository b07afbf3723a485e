#!/usr/bin/env python3
"""Differential test of the Python primitives of the model against CPython.

The model rests on hand-written Gallina versions of methods of bytes, int(), re,
strptime, posixpath, repr, UTF-8, BytesIO.  This script draws random inputs, asks the
running CPython for the answers (it imports nothing from /repo; the regular expressions
are copied from there) and has Coq evaluate the model's functions on the same inputs.
It prints the inputs on which they differ.  Not part of the proofs or of the build.

usage: difftest.py [number of cases per function]   (after building /verif/rocq)
"""
import random, re, subprocess, sys, os, io, datetime, posixpath, urllib.parse
R = random.Random(20240501)
N = int(sys.argv[1]) if len(sys.argv) > 1 else 400
TH = os.path.join(os.path.dirname(os.path.dirname(os.path.abspath(__file__))), 'rocq', 'theories')
OUT = '/tmp/w/diff'
os.makedirs(OUT, exist_ok=True)

# ---- to Gallina
def b(s): return '[' + '; '.join(str(c) for c in s) + ']%N'
def t(s): return b([ord(c) for c in s])
def z(n): return '(%d)%%Z' % n
def opt(x, f): return 'None' if x is None else '(Some %s)' % f(x)
def lst(xs, f): return '[' + '; '.join(f(x) for x in xs) + ']'
def pair(f, g): return lambda p: '(%s, %s)' % (f(p[0]), g(p[1]))
def boo(x): return 'true' if x else 'false'

def rnd(alpha, n=10): return bytes(R.choice(alpha) for _ in range(R.randint(0, n)))
WS = b' \t\n\r\x0b\x0c'
ANY = bytes(range(256))
def mix(n=10):
    a = R.choice([WS + b'ab:;', ANY, b'aAzZ@[`{09_ \n', b'\r\n ab', WS + b'\x1c\x1f\x85\xa0a'])
    return rnd(a, n)
def num():
    a = R.choice([b'0123456789', b'0123_+- ', b'0xXabfF1_ ', b'01_ \n\x0b+-xo', b'bBoO01_'])
    s = rnd(a, 7)
    if R.random() < .3: s = rnd(WS, 2) + s + rnd(WS, 2)
    if R.random() < .2: s = R.choice([b'-', b'+']) + s
    if R.random() < .2: s = R.choice([b'0x', b'0X', b'-0x', b'0x_', b'0o', b'0b']) + s
    return s
def pyint(s, base):
    try: return int(s, base)
    except ValueError: return None

tests = []   # name, Coq type of a case, Coq predicate, cases
def test(name, ty, pred, cases): tests.append((name, ty, pred, cases))

BB = 'bytes * bytes'
def beq(x, y): return 'bytes_eqb (%s) (%s)' % (x, y)
for name, f in [('strip', bytes.strip), ('lstrip', bytes.lstrip), ('rstrip', bytes.rstrip), ('lower', bytes.lower), ('upper', bytes.upper),
                ('rstrip_crlf', lambda s: s.rstrip(b'\r\n'))]:
    test(name, BB, 'fun p => ' + beq(name + ' (fst p)', 'snd p'), [pair(b, b)((s, f(s))) for s in (mix() for _ in range(N))])
leq = '(fix leq (a c : list bytes) := match a, c with [], [] => true | x :: a, y :: c => bytes_eqb x y && leq a c | _, _ => false end)'
test('split_ws', 'bytes * list bytes', 'fun p => %s (split_ws (fst p)) (snd p)' % leq, ['(%s, %s)' % (b(s), lst(s.split(), b)) for s in (mix() for _ in range(N))])
test('split_all', 'bytes * list bytes', 'fun p => %s (split_all 58 (fst p)) (snd p)' % leq, ['(%s, %s)' % (b(s), lst(s.split(b':'), b)) for s in (rnd(b'a:b', 7) for _ in range(N))])
for k in (1, 2, 3):
    test('split_max%d' % k, 'bytes * list bytes', 'fun p => %s (split_max %d 32 (fst p)) (snd p)' % (leq, k), ['(%s, %s)' % (b(s), lst(s.split(b' ', k), b)) for s in (rnd(b'a b\n', 8) for _ in range(N))])
def subcase():
    s = rnd(b'ab', 8); u = rnd(b'ab', 3); return s, u
for name, f in [('contains', lambda u, s: u in s), ('startswith', lambda u, s: s.startswith(u)), ('endswith', lambda u, s: s.endswith(u))]:
    test(name, 'bytes * bytes * bool', 'fun p => Bool.eqb (%s (fst (fst p)) (snd (fst p))) (snd p)' % name, ['(%s, %s, %s)' % (b(u), b(s), boo(f(u, s))) for s, u in (subcase() for _ in range(N))])
zeq = 'match %s, %s with Some a, Some c => Z.eqb a c | None, None => true | _, _ => false end'
for base in (10, 16):
    test('py_int%d' % base, 'bytes * option Z', 'fun p => ' + zeq % ('py_int %d (fst p)' % base, 'snd p'), ['(%s, %s)' % (b(s), opt(pyint(s, base), z)) for s in (num() for _ in range(4 * N))])
test('dec_Z', 'Z * bytes', 'fun p => ' + beq('dec_Z (fst p)', 'snd p'), ['(%s, %s)' % (z(n), b(str(n).encode())) for n in (R.choice([0, 1, -1, 9, 10, -10, 99, 100, R.randint(-10**6, 10**6), R.randint(-10**20, 10**20)]) for _ in range(N))])
def slc():
    s = rnd(b'abcdefg', 8); i = R.randint(0, 9); j = R.randint(-10, 11); return s, i, j
test('slice', 'bytes * nat * Z * bytes', 'fun p => let \'(s, i, j, e) := p in ' + beq('slice s i j', 'e'), ['(%s, %d%%nat, %s, %s)' % (b(s), i, z(j), b(s[i:j])) for s, i, j in (slc() for _ in range(N))])
def fnd():
    s = rnd(b'ab', 6); i = R.randint(0, 7); return s, i, s.find(b'b', i)
neq = 'match %s, %s with Some a, Some c => Nat.eqb a c | None, None => true | _, _ => false end'
test('find_from', 'bytes * nat * option nat', 'fun p => let \'(s, i, e) := p in ' + neq % ('find_from 98 i s', 'e'), ['(%s, %d%%nat, %s)' % (b(s), i, 'None' if e < 0 else 'Some %d%%nat' % e) for s, i, e in (fnd() for _ in range(N))])

# ---- regular expressions
version_rx = re.compile(br'^(?P<prefix>.*?)(?P<version>\s*WARC/(?P<number>.*?))' b'(?P<nl>\r\n|\r|\n)\\Z', re.I)
header_rx = re.compile(br'^(?P<name>.*?):\s?(?P<value>.*?)' b'(?P<nl>\r\n|\r|\n)\\Z', re.I)
value_rx = re.compile(br'^\s+(?P<value>.+?)' b'(?P<nl>\r\n|\r|\n)\\Z', re.I)
nl_rx = re.compile(b'^(?P<nl>\r\n|\r|\n\\Z)', re.I)
length_rx = re.compile(b'^Content-Length$', re.I)
crlf_rx = re.compile(br'^[\r\n]+$')
url_rx = re.compile(b'(?P<scheme>https?)://(?P<authority>(?P<host>[^:/]+)(?::(?P<port>\\d+))?)(?P<path>.*)', re.I)
SPLIT = re.compile(br'\b\s|\s\b').split
filedesc_rx = re.compile(br'^filedesc://')
def vline():
    s = b''
    for _ in range(R.randint(1, 3)): s += rnd(b'\x00x \t\r\n', 3) + R.choice([b'WARC/', b'warc/', b'WaRc/', b'WARC', b'']) + rnd(b'1.0 \r', 3)
    return s + R.choice([b'\r\n', b'\n', b'\r', b'', b'\n\n', b'\r\n\n'])
def hline(): return rnd(b'ab: \t\r\n\x0b', 8) + R.choice([b'\r\n', b'\n', b'\r', b'', b'\n\n', b'\r\r\n'])
def uline():
    return R.choice([b'http', b'HTTPS', b'hTtPs', b'htt', b'ahttp']) + R.choice([b'://', b':/', b'://' ]) + rnd(b'a:/0\n9?', 4) + rnd(b':09/a', 4) + rnd(b'a\n:/', 3)
def rxtest(name, coqname, rx, groups, gen, n=N):
    """groups: list of (python name, coq number)"""
    checks = ' && '.join(['match group_opt %s g with Some x => match nth %d e None with Some y => bytes_eqb x y | None => false end | None => match nth %d e None with Some _ => false | None => true end end' % (num, i, i) for i, (_, num) in enumerate(groups)] or ['true'])
    pred = 'fun p : bytes * option (list (option bytes)) => match re_match %s (fst p), snd p with Some g, Some e => %s | None, None => true | _, _ => false end' % (coqname, checks)
    cases = []
    for _ in range(n):
        s = gen(); m = rx.match(s)
        e = None if m is None else [m.group(g) for g, _ in groups]
        cases.append('(%s, %s)' % (b(s), opt(e, lambda l: lst(l, lambda x: opt(x, b)))))
    test(name, 'bytes * option (list (option bytes))', pred, cases)
rxtest('version_rx', 'version_rx', version_rx, [('prefix', 'g_prefix'), ('version', 'g_version'), ('number', 'g_number'), ('nl', 'g_nl')], vline, 2 * N)
rxtest('header_rx', 'header_rx', header_rx, [('name', 'g_name'), ('value', 'g_value'), ('nl', 'g_nl')], hline, 2 * N)
rxtest('value_rx', 'value_rx', value_rx, [('value', 'g_value'), ('nl', 'g_nl')], hline, 2 * N)
rxtest('nl_rx', 'nl_rx', nl_rx, [('nl', 'g_nl')], lambda: rnd(b'\r\na', 3), N)
rxtest('length_rx', 'length_rx', length_rx, [], lambda: R.choice([b'Content-Length', b'content-LENGTH', b'Content-Length\n', b'Content-Length\r', b'Content-Length\n\n', b' Content-Length', b'\nContent-Length', b'Content-Lengt', b'Content-Lengthx', b'']), N // 4)
rxtest('crlf_line_rx', 'crlf_line_rx', crlf_rx, [], lambda: rnd(b'\r\n', 4) + rnd(b'\r\na', 1), N)
rxtest('filedesc_rx', 'filedesc_rx', filedesc_rx, [], lambda: R.choice([b'filedesc://x', b'filedesc:/', b'Filedesc://', b' filedesc://', b'\nfiledesc://', b'filedesc://']), N // 8)
rxtest('url_rx', 'url_rx', url_rx, [('path', '1'), ('scheme', '2'), ('host', '3'), ('port', '4'), ('authority', '5')], uline, 2 * N)
for k in (0, 1, 2, 4):
    test('re_split%d' % k, 'bytes * list bytes', 'fun p => %s (re_split split_rx %d (fst p)) (snd p)' % (leq, k), ['(%s, %s)' % (b(s), lst(SPLIT(s, k), b)) for s in (rnd(R.choice([b'a_ -', b'ab \n\t.', ANY, b'a \xe9', b'  a']), 9) for _ in range(N))])
SUB = re.compile(br'[^\w\t \|\\\/]')
test('strip_sub', BB, 'fun p => ' + beq('strip_sub (fst p)', 'snd p'), [pair(b, b)((s, SUB.sub(lambda x: ('\\x%00X' % ord(x.group())).encode(), s))) for s in (rnd(ANY, 9) for _ in range(N))])

# ---- dates
def strp(s, f):
    try: return datetime.datetime.strptime(s, f)
    except ValueError: return None
def dstr():
    y = R.choice(['2020', '2019', '1900', '2000', '0001', '0000', '9999', '1970'])
    s = y + ''.join(R.choice('0123456789') for _ in range(R.randint(0, 11)))
    if R.random() < .6:
        s = y + '%02d%02d%02d%02d%02d' % (R.randint(0, 13), R.choice([0, 1, 28, 29, 30, 31, 32]), R.randint(0, 25), R.randint(58, 61), R.randint(58, 62))
        s = s[:R.choice([14, 14, 8, 13, 12, 10, 9, 7, 6])]
    if R.random() < .1: s = s[:R.randint(0, len(s))] + R.choice([' ', 'x', '-', '\n', '+']) + s[R.randint(0, len(s)):]
    return s
dteq = 'match %s, %s with Some a, Some c => bytes_eqb (isoformat a) c | None, None => true | _, _ => false end'
for fmt, nm in (('%Y%m%d%H%M%S', 'FORMAT14'), ('%Y%m%d', 'FORMAT8')):
    test('strptime_' + nm, 'bytes * option bytes', 'fun p => ' + dteq % ('strptime %s (fst p)' % nm, 'snd p'), ['(%s, %s)' % (t(s), opt(strp(s, fmt), lambda d: b(d.isoformat().encode()))) for s in (dstr() for _ in range(4 * N))])

# ---- paths
def path(): return ''.join(R.choice(['/', '.', '..', 'a', 'b.c', '//', './', '../']) for _ in range(R.randint(0, 6)))
test('normpath', BB, 'fun p => ' + beq('normpath (fst p)', 'snd p'), ['(%s, %s)' % (t(s), t(posixpath.normpath(s))) for s in (path() for _ in range(2 * N))])
test('basename', BB, 'fun p => ' + beq('basename (fst p)', 'snd p'), ['(%s, %s)' % (t(s), t(posixpath.basename(s))) for s in (path() for _ in range(N))])
test('path_head', BB, 'fun p => ' + beq('path_head (fst p)', 'snd p'), ['(%s, %s)' % (t(s), t(posixpath.split(s)[0])) for s in (path() for _ in range(N))])
test('splitext', 'bytes * (bytes * bytes)', 'fun p => bytes_eqb (fst (splitext (fst p))) (fst (snd p)) && bytes_eqb (snd (splitext (fst p))) (snd (snd p))', ['(%s, %s)' % (t(s), pair(t, t)(posixpath.splitext(s))) for s in (path() for _ in range(2 * N))])
test('join_path', 'bytes * bytes * bytes', 'fun p => ' + beq('join_path (fst (fst p)) (snd (fst p))', 'snd p'), ['(%s, %s, %s)' % (t(x), t(y), t(posixpath.join(x, y))) for x, y in ((path(), path()) for _ in range(N))])

# ---- texts
test('repr_bytes', BB, 'fun p => ' + beq('repr_bytes (fst p)', 'snd p'), ['(%s, %s)' % (b(s), t(repr(s))) for s in (rnd(R.choice([ANY, b'\'"a\\', b'\'"', b'\n\r\t\x00\x7f\x1f']), 6) for _ in range(N))])
CP = [0, 65, 127, 128, 255, 0x7ff, 0x800, 0xd7ff, 0xd800, 0xdbff, 0xdfff, 0xe000, 0xffff, 0x10000, 0x10ffff]
def utf(c):
    try: return chr(c).encode('utf-8')
    except UnicodeEncodeError: return None
test('utf8_char', 'N * option bytes', 'fun p => match utf8_char (fst p), snd p with Ret a, Some c => bytes_eqb a c | Raise _, None => true | _, _ => false end', ['(%d%%N, %s)' % (c, opt(utf(c), b)) for c in CP + [R.randint(0, 0x10ffff) for _ in range(N)]])
test('text_space', 'N * bool', 'fun p => Bool.eqb (text_space (fst p)) (snd p)', ['(%d%%N, %s)' % (c, boo(chr(c).strip() == '')) for c in list(range(0, 0x3100)) + [0xfeff, 0x10ffff, 0xd800]])
def s3(): return R.choice(['s3://', 's3:', 'S3://', 's3:/']) + ''.join(R.choice('ab/?#;.:@-') for _ in range(R.randint(0, 8)))
def s3case():
    while True:
        u = s3()
        try: p = urllib.parse.urlparse(u)
        except ValueError: continue
        return u, p
test('s3_parse', 'bytes * (bytes * bytes)', 'fun p => bytes_eqb (fst (s3_parse (fst p))) (fst (snd p)) && bytes_eqb (snd (s3_parse (fst p))) (snd (snd p))', ['(%s, (%s, %s))' % (t(u), t(p.netloc), t(p.path)) for u, p in ((s3case()) for _ in range(N)) if u.startswith('s3://')])

# ---- files
def fileops():
    data = rnd(b'ab\n', 12); f = io.BytesIO(data); ops = []
    for _ in range(R.randint(1, 5)):
        k = R.choice('rRlLsc')
        n = R.randint(-2, 14)
        if k == 'r': ops.append(('OpRead', n, f.read(n), f.tell()))
        elif k == 'R': ops.append(('OpReadAll', 0, f.read(), f.tell()))
        elif k == 'l': ops.append(('OpLine', 0, f.readline(), f.tell()))
        elif k == 'L': ops.append(('OpLineLim', n, f.readline(n), f.tell()))
        elif k == 's' and n >= 0: f.seek(n); ops.append(('OpSeek', n, b'', f.tell()))
    return data, ops
PRE = '''
Inductive fop : Type := OpRead | OpReadAll | OpLine | OpLineLim | OpSeek.
Definition fstep (f : file) (o : fop) (n : Z) : bytes * file :=
  match o with
  | OpRead => match f_read f n with (Ret d, f') => (d, f') | (_, f') => ([], f') end
  | OpReadAll => f_read_all f
  | OpLine => f_readline f
  | OpLineLim => f_readline_lim f n
  | OpSeek => ([], snd (f_seek f n))
  end.
Fixpoint fops (f : file) (l : list (fop * Z * bytes * nat)) : bool :=
  match l with
  | [] => true
  | (o, n, d, pos) :: t => let (d', f') := fstep f o n in bytes_eqb d d' && Nat.eqb (f_tell f') pos && fops f' t
  end.
'''
# BytesIO: read(n) for n < -1 reads everything (f_strict = false)
def ok(ops): return True
fc = []
while len(fc) < 2 * N:
    d, ops = fileops()
    if ok(ops): fc.append('(%s, %s)' % (b(d), lst(ops, lambda q: '(%s, %s, %s, %d%%nat)' % (q[0], z(q[1]), b(q[2]), q[3]))))
test('files', 'bytes * list (fop * Z * bytes * nat)', 'fun p => fops (mkfile (fst p) 0 false) (snd p)', fc)

src = open(OUT + '/Diff.v', 'w')
src.write('From Verif Require Import PropsLinks A2WMain Unpack Links HttpRequest S3 Dates Dump Http Warc Arc Reader Regex FileIO PyBytes.\nFrom Coq Require Import String List ZArith NArith Bool.\nImport ListNotations.\nOpen Scope list_scope.\nOpen Scope bool_scope.\n' + PRE)
for name, ty, pred, cases in tests:
    src.write('Definition cases_%s : list (%s) := [\n %s].\n' % (name, ty, ';\n '.join(cases)))
    src.write('Definition bad_%s := Eval vm_compute in filter (fun p => negb ((%s) p)) cases_%s.\n' % (name, pred, name))
    src.write('Eval vm_compute in ("%s"%%string, List.length cases_%s, List.length bad_%s, firstn 4 bad_%s).\n' % (name, name, name, name))
src.close()
r = subprocess.run(['coqc', '-Q', TH, 'Verif', OUT + '/Diff.v'], capture_output=True, text=True)
print(r.stdout)
print(r.stderr[:3000])
