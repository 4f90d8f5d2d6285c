#!/usr/bin/env python3
"""Compare the Gallina versions of Python's standard library (Py.v, Codec.v, PyTime.v, Json.v, Readable.v, Stdout.v,
Sha256.v, Args.v, Report.v) with the library of the Python that runs this script, on random and on boundary inputs.
Needs a finished build in /verif/rocq. Scratch files go to a temporary directory; nothing of /repo is executed.

usage: check_python.py [seed] [check ...]
"""
import argparse, contextlib, datetime, hashlib, io, json, os, random, re, struct, subprocess, sys, tempfile, textwrap

ROCQ = os.environ.get("ROCQ", "/verif/rocq/theories")
PRE = """From Verif Require Import Py PyTime Codec Utils LnkFile Json Report Readable Stdout Sha256 Args.
Definition B (l : list N) : bytes := map n2b l.
Definition n_eqb (b1 b2 : bytes) : bool := text_eqb (map b2n b1) (map b2n b2).
Definition opt_eqb {A} (f : A -> A -> bool) (a b : option A) : bool :=
  match a, b with Some x, Some y => f x y | None, None => true | _, _ => false end.
Fixpoint list_eqb {A} (f : A -> A -> bool) (a b : list A) : bool :=
  match a, b with x :: a', y :: b' => f x y && list_eqb f a' b' | [], [] => true | _, _ => false end.
Definition dt_eqb (a b : datetime) : bool :=
  match a, b with DT y m d h i s u, DT y' m' d' h' i' s' u' =>
    (y =? y')%Z && (m =? m')%Z && (d =? d')%Z && (h =? h')%Z && (i =? i')%Z && (s =? s')%Z && (u =? u')%Z end.
Definition pair_eqb {A C} (f : A -> A -> bool) (g : C -> C -> bool) (a b : A * C) : bool := f (fst a) (fst b) && g (snd a) (snd b).
Definition res_eqb {A} (f : A -> A -> bool) (a b : result A) : bool :=
  match a, b with Ok x, Ok y => f x y | Err StructError, Err StructError => true | _, _ => false end.
Definition digit (c : N) : bool := (48 <=? c) && (c <=? 57) || (0x660 <=? c) && (c <=? 0x669).
Definition parsing_eqb (a b : parsing) : bool :=
  match a, b with
  | Helped, Helped | Refused, Refused => true
  | Namespace (Ns (Some f) t j c a []), Namespace (Ns (Some f') t' j' c' a' []) =>
    text_eqb f f' && Bool.eqb t t' && Bool.eqb j j' && text_eqb c c' && Bool.eqb a a'
  | _, _ => false
  end.
Definition utf8_char (c : N) : option bytes :=
  if (0xD800 <=? c) && (c <=? 0xDFFF) then None
  else Some (B (if c <? 0x80 then [c] else if c <? 0x800 then [0xC0 + c / 64; 0x80 + c mod 64]
    else if c <? 0x10000 then [0xE0 + c / 4096; 0x80 + c / 64 mod 64; 0x80 + c mod 64]
    else [0xF0 + c / 262144; 0x80 + c / 4096 mod 64; 0x80 + c / 64 mod 64; 0x80 + c mod 64])).
Definition ascii_out (c : N) : option bytes := if c <? 128 then Some (B [c]) else None.
"""

def nums(l): return "[" + "; ".join(str(x) for x in l) + "]"
def T(s): return nums(ord(c) for c in s)
def Bs(b): return "(B %s)" % nums(b)
def opt(f, x): return "None" if x is None else "(Some %s)" % f(x)
def Z(n): return "(%d)%%Z" % n
def boolean(x): return "true" if x else "false"
def DT(d): return "(DT %s)" % " ".join(Z(x) for x in (d.year, d.month, d.day, d.hour, d.minute, d.second, d.microsecond))

def attempt(f, *errors):
    try: return f()
    except errors: return None

R = random.Random(int(sys.argv[1]) if len(sys.argv) > 1 else 1)
some_bytes = [0, 1, 0x41, 0x7F, 0x80, 0x81, 0x8D, 0x8F, 0x90, 0x9D, 0xA0, 0xBF, 0xC0, 0xC1, 0xC2, 0xDF, 0xE0, 0xED, 0xEF,
              0xF0, 0xF4, 0xF5, 0xFF, 0xD8, 0xDB, 0xDC, 0x9F, 0x8F]
def rbytes(n): return bytes(R.choice(some_bytes) if R.random() < .7 else R.randrange(256) for _ in range(R.randrange(n)))
some_chars = [0, 8, 9, 10, 11, 12, 13, 28, 29, 30, 31, 32, 34, 47, 92, 97, 126, 127, 0x85, 0xA0, 0xE9, 0x1680, 0x2000, 0x200A, 0x200B,
              0x2028, 0x2029, 0x202F, 0x205F, 0x3000, 0xD7FF, 0xD800, 0xDBFF, 0xDC00, 0xDFFF, 0xFEFF, 0xFFFD, 0xFFFF, 0x10000, 0x10FFFF]
def rtext(n, chars=some_chars): return "".join(chr(R.choice(chars)) if R.random() < .8 else chr(R.randrange(0x110000)) for _ in range(R.randrange(n)))

checks = {}
def check(name, fun, eqb):
    """[fun]: the Gallina function of one input; the generator yields (input, expected) as Gallina terms"""
    def deco(g): checks[name] = (fun, eqb, g); return g
    return deco

@check("cp1252", "fun b => (strict cp1252 b, Codec.replace cp1252 b)", "pair_eqb (opt_eqb text_eqb) text_eqb")
def _():
    for b in [bytes([i]) for i in range(256)] + [rbytes(12) for _ in range(300)]:
        yield Bs(b), "(%s, %s)" % (opt(T, attempt(lambda: b.decode("cp1252"), UnicodeDecodeError)), T(b.decode("cp1252", errors="replace")))
@check("ascii", "ascii_replace", "text_eqb")
def _():
    for b in [rbytes(12) for _ in range(300)]: yield Bs(b), T(b.decode("ascii", errors="replace"))
@check("utf8", "utf8_strict", "opt_eqb text_eqb")
def _():
    for b in [rbytes(5) for _ in range(1500)] + [rtext(6).encode("utf-8", "surrogatepass") for _ in range(500)] \
             + [chr(c).encode("utf-8", "surrogatepass") for c in some_chars]:
        yield Bs(b), opt(T, attempt(lambda: b.decode("utf-8"), UnicodeDecodeError))
@check("utf16", "fun b => (utf16_strict b, utf16_replace b)", "pair_eqb (opt_eqb text_eqb) text_eqb")
def _():
    for b in [rbytes(9) for _ in range(800)] + [rtext(6).encode("utf-16le", "surrogatepass") for _ in range(400)] \
             + [b"".join(bytes([R.choice([0, 1, 0x41]), R.choice([0, 0xD8, 0xDB, 0xDC, 0xDF, 0x41])]) for _ in range(R.randrange(6)))[:R.randrange(12)] for _ in range(800)]:
        yield Bs(b), "(%s, %s)" % (opt(T, attempt(lambda: b.decode("utf-16le"), UnicodeDecodeError)), T(b.decode("utf-16le", errors="replace")))

EPOCH = 116444736000000000
def stamp(n):
    return attempt(lambda: datetime.datetime.fromtimestamp((n - EPOCH) / 10000000, tz=datetime.timezone.utc), OSError, OverflowError, ValueError)
@check("fromtimestamp", "fun n => fromtimestamp_utc (n - epoch_as_filetime)%Z hundreds_of_nanoseconds", "opt_eqb dt_eqb")
def _():
    day = 864000000000
    lo = EPOCH - 719162 * day; hi = EPOCH + 2932897 * day
    ns = [0, 1, 5, -1, EPOCH, EPOCH - 1, EPOCH + 1, 2**63 - 1, -2**63, lo, hi]
    for base in [lo, hi, EPOCH, EPOCH + 2**32 * 10**7, EPOCH - 2**32 * 10**7, EPOCH + 2**31 * 10**7, 0]:
        ns += [base + d for d in range(-200, 200, 7)] + [base + d for d in range(-30, 30)]
    ns += [R.randrange(lo, hi) for _ in range(1500)] + [R.randrange(-2**63, 2**63) for _ in range(300)]
    ns += [EPOCH + R.randrange(-2**33, 2**33) * 10**7 + R.choice([0, 5, 15, 25, 4, 6, 14, 16, 9999995, 9999994, 9999996]) for _ in range(700)]
    ns += [EPOCH + R.randrange(-2**30, 2**30) for _ in range(300)]
    for n in ns:
        if -2**63 <= n < 2**63: yield Z(n), opt(DT, stamp(n))
@check("datetime", "fun t => match t with (y, m, d, (h, i, s)) => make_datetime y m d h i s 0 end", "opt_eqb dt_eqb")
def _():
    for _ in range(1500):
        a = (R.choice([1980, 1999, 2000, 2001, 2004, 2100, 2107, R.randrange(1980, 2108)]), R.randrange(16), R.choice([0, 1, 28, 29, 30, 31]), R.randrange(32), R.randrange(64), R.randrange(32) * 2)
        yield "((%s, %s, %s, (%s, %s, %s)))" % tuple(Z(x) for x in a), opt(DT, attempt(lambda: datetime.datetime(*a, tzinfo=datetime.timezone.utc), ValueError))
@check("numbers", "fun z => [decZ_text z; hexX 8 (Z.abs_N z); hexX_Z 8 z; hexx 4 (Z.abs_N z); hex_text (Z.abs_N z)]", "list_eqb text_eqb")
def _():
    for n in [0, 1, 9, 10, 15, 16, 255, 256, 4294967295, 4294967296, -1, -16, -0xFFFFFFF, -0x10000000] + [R.randrange(-2**k, 2**k) for k in range(1, 70) for _ in range(6)]:
        yield Z(n), "[%s]" % "; ".join(T(s) for s in (str(n), "%08X" % abs(n), f"{n:08X}", "%04x" % abs(n), hex(abs(n))))
@check("unpack", "fun b => (snd (unpack_u8 b), (snd (unpack_u16 b), (snd (unpack_u32 b), (snd (unpack_i16 b), (snd (unpack_i32 b), snd (unpack_i64 b))))))",
       "pair_eqb (res_eqb N.eqb) (pair_eqb (res_eqb N.eqb) (pair_eqb (res_eqb N.eqb) (pair_eqb (res_eqb Z.eqb) (pair_eqb (res_eqb Z.eqb) (res_eqb Z.eqb)))))")
def _():
    for b in [rbytes(10) for _ in range(800)] + [bytes([R.choice([0, 0x7F, 0x80, 0xFF]) for _ in range(k)]) for k in (1, 2, 4, 8) for _ in range(60)]:
        def u(f, g):
            v = attempt(lambda: struct.unpack(f, b)[0], struct.error)
            return "@Err %s StructError" % ("Z" if g is Z else "N") if v is None else "Ok %s" % g(v)
        yield Bs(b), "(%s, (%s, (%s, (%s, (%s, %s)))))" % (u("<B", str), u("<H", str), u("<I", str), u("<h", Z), u("<i", Z), u("<q", Z))
@check("slice", "fun t : N * N * text => match t with (i, j, b) => slice i j b end", "text_eqb")
def _():
    for _ in range(500):
        b = [R.randrange(9) for _ in range(R.randrange(8))]; i, j = R.randrange(10), R.randrange(10)
        yield "(%d, %d, %s)" % (i, j, nums(b)), nums(b[i:j])

def value(depth):
    k = R.randrange(7 if depth else 4)
    if k == 0: return None
    if k == 1: return R.randrange(-2**40, 2**40)
    if k == 2: return rtext(6)
    if k == 3: return datetime.datetime(R.randrange(1, 10000), R.randrange(1, 13), R.randrange(1, 29), R.randrange(24), R.randrange(60), R.randrange(60), R.randrange(10**6), tzinfo=datetime.timezone.utc)
    if k == 4: return [value(depth - 1) for _ in range(R.randrange(4))]
    return {"".join(R.choice("abAB_ 09~") for _ in range(R.randrange(5))): value(depth - 1) for _ in range(R.randrange(5))}
def V(v):
    if v is None: return "PNone"
    if isinstance(v, int): return "(PInt %s)" % Z(v)
    if isinstance(v, str): return "(PStr %s)" % T(v)
    if isinstance(v, datetime.datetime): return "(PDate %s)" % DT(v)
    if isinstance(v, list): return "(PList [%s])" % "; ".join(map(V, v))
    return "(PDict [%s])" % "; ".join('("%s"%%string, %s)' % (k, V(x)) for k, x in v.items())
@check("json", "dumps 0", "text_eqb")
def _():
    for c in some_chars: yield V(chr(c)), T(json.dumps(chr(c)))
    for _ in range(400):
        v = value(4)
        yield V(v), T(json.dumps(v, indent=4, separators=(",", ": "), default=lambda d: d.replace(microsecond=0).isoformat(), sort_keys=True))
@check("replace", "fun t => match t with (m, n, s) => Readable.replace m n s end", "text_eqb")
def _():
    for _ in range(500):
        m, n, s = ("".join(R.choice("ab") for _ in range(k)) for k in (R.randrange(1, 4), R.randrange(3), R.randrange(12)))
        yield "(%s, %s, %s)" % (T(m), T(n), T(s)), T(s.replace(m, n))
@check("white", "fun c => (is_linebreak c, is_whitespace c)", "pair_eqb Bool.eqb Bool.eqb")
def _():
    for c in list(range(0x300)) + list(range(0x1600, 0x1700)) + list(range(0x1F00, 0x2100)) + list(range(0x2F00, 0x3100)) + some_chars + [0xFF00 + i for i in range(256)] + [R.randrange(0x110000) for _ in range(300)]:
        yield str(c), "(%s, %s)" % (boolean(len(("a" + chr(c) + "a").splitlines()) == 2), boolean(chr(c).isspace()))
    for c in range(0x110000):   # all of the others, in Python
        if chr(c).isspace() and not (c < 0x300 or 0x1600 <= c < 0x1700 or 0x1F00 <= c < 0x2100 or 0x2F00 <= c < 0x3100): raise Exception(c)
@check("indent", 'indent (s2t "   ")', "text_eqb")
def _():
    for _ in range(800):
        s = rtext(14); yield T(s), T(textwrap.indent(s, "   "))
    for _ in range(300):
        s = "".join(R.choice("\r\n a") for _ in range(R.randrange(9))); yield T(s), T(textwrap.indent(s, "   "))
@check("sha256", "sha256_hex", "text_eqb")
def _():
    for k in list(range(0, 140, 3)) + [54, 55, 56, 57, 62, 63, 64, 65, 118, 119, 120, 121, 127, 128, 129, 300]:
        b = bytes(R.randrange(256) for _ in range(k)); yield Bs(b), T(hashlib.sha256(b).hexdigest())
@check("list2cmdline", "list2cmdline1", "text_eqb")
def _():
    for _ in range(800):
        s = "".join(R.choice('\\\\" \ta\xe9　') for _ in range(R.randrange(8))); yield T(s), T(subprocess.list2cmdline([s]))
def printed(texts, encoding, newline):
    raw = io.BytesIO(); out = io.TextIOWrapper(raw, encoding=encoding, newline=newline, write_through=True); ok = True
    try:
        for t in texts: print(t, file=out)
    except UnicodeEncodeError: ok = False
    out.flush(); return raw.getvalue(), ok
for enc, f in (("utf-8", "utf8_char"), ("ascii", "ascii_out")):
    for crlf in (False, True):
        def g(enc=enc, crlf=crlf):
            for _ in range(200):
                ts = [rtext(4, [10, 13, 65, 66, 0xE9, 0x3000, 0x10000] if enc == "utf-8" or R.random() < .3 else [10, 13, 65, 66]) if R.random() < .8 else "\ud800" for _ in range(R.randrange(4))]
                b, ok = printed(ts, enc, "\r\n" if crlf else "\n")
                yield "[%s]" % "; ".join(map(T, ts)), "(%s, %s)" % (Bs(b), boolean(ok))
        check("print %s%s" % (enc, " crlf" if crlf else ""), "print_all (Stream %s %s)" % (f, boolean(crlf)), "pair_eqb n_eqb Bool.eqb")(g)

words = ["-t", "-j", "-c", "-a", "-h", "--target", "--json", "--codepage", "--all", "--help", "--", "-", "", "f", "g", "x.lnk", "--t", "--ta", "--j=",
         "--codepage=utf-8", "--code=x", "--c", "--cod", "-cutf8", "-c=utf8", "-tj", "-tja", "-tjc", "-tjcx", "-tx", "-t=", "-t=j", "-tj=a", "-tc=",
         "-tc=x", "-tcj", "-jt-", "-j-", "-x", "--x", "--x=y", "-1", "-1.5", "-.5", "-1.", "-5\n", "-12\n\n", "-a b", "-x y", "--x y", "--a b", "--al=1",
         "-ca", "-c-", "--=", "--=x", "=", "-=", "-h=", "-th", "-thx", "-tx=", "-t-x", "--h", "--he", "--tar", "---", "--all=", "-- ", "-c ", "-ta b",
         "-tq b", "-aq-", "a-b", "-\xe9", "-٣", "-t٣"]
def word():
    if R.random() < .75: return R.choice(words)
    return "-" + "".join(R.choice("tjcahx=-f1. ") for _ in range(R.randrange(5)))
@check("argparse", "parse_args digit", "parsing_eqb")
def _():
    for _ in range(4000):
        argv = [word() for _ in range(R.choice([1, 1, 2, 2, 3, 3, 4, 5, 6]))]
        if R.random() < .3: argv = [a for a in argv if a in ("-t", "-j", "-a", "-c", "--json", "--", "f", "-tj", "-cutf8", "--all")] + ["f"]; R.shuffle(argv)
        p = argparse.ArgumentParser()
        p.add_argument(dest="file", metavar="FILE")
        p.add_argument("-t", "--target", action="store_true")
        p.add_argument("-j", "--json", action="store_true")
        p.add_argument("-c", "--codepage", dest="cp", default="cp1252")
        p.add_argument("-a", "--all", dest="print_all", action="store_true")
        try:
            with contextlib.redirect_stdout(io.StringIO()), contextlib.redirect_stderr(io.StringIO()): ns = p.parse_args(argv)
            res = "Namespace (Ns (Some %s) %s %s %s %s [])" % (T(ns.file), boolean(ns.target), boolean(ns.json), T(ns.cp), boolean(ns.print_all))
        except SystemExit as e: res = "Refused" if e.code else "Helped"
        yield "[%s]" % "; ".join(map(T, argv)), "(%s)" % res

bad = 0
for name, (fun, eqb, gen) in checks.items():
    if len(sys.argv) > 2 and name not in sys.argv[2:]: continue
    cases = list(gen())
    with tempfile.TemporaryDirectory() as d:
        p = os.path.join(d, "S.v")
        with open(p, "w") as o:
            o.write(PRE + "Definition f := %s.\nDefinition same := %s.\n" % (fun, eqb))
            for i in range(0, len(cases), 200):
                o.write("Definition cases%d := [\n%s].\n" % (i, ";\n".join("(%s, %s)" % c for c in cases[i:i + 200])))
                o.write("Eval vm_compute in map (fun c => (f (fst c), c)) (filter (fun c => negb (same (f (fst c)) (snd c))) cases%d).\n" % i)
        r = subprocess.run(["bash", "-c", f"ulimit -s unlimited; coqc -Q {ROCQ} Verif {p}"], capture_output=True, text=True, timeout=3000)
    wrong = re.findall(r"     = (.*?)\n     : ", r.stdout, re.S)
    if r.returncode or len(wrong) != (len(cases) + 199) // 200: print(name, "does not run:", r.stderr[-1500:]); bad += 1; continue
    wrong = [w for w in wrong if w != "[]"]
    print("%-16s %5d cases, %s" % (name, len(cases), "all equal" if not wrong else "DIFFERENT: " + "\n".join(wrong)[:1500]), flush=True)
    bad += bool(wrong)
sys.exit(bad > 0)
