#!/usr/bin/env python3
"""Write PyTests.v: what CPython's library gives on random arguments, to be compared with the model.

Only Python's own library runs here, nothing of the repository.
usage: gen_py_tests.py [cases per table] > PyTests.v"""
import base64, binascii, configparser, math, os, random, struct, sys, tempfile

N = int(sys.argv[1]) if len(sys.argv) > 1 else 60
R = random.Random(20)

def codes(s):
    return '[' + ';'.join(str(c if isinstance(c, int) else ord(c)) for c in s) + ']%N'

def z(n):
    return '(%d)' % n

def flt(f):
    if f != f: return 'S754_nan'
    s = 'true' if math.copysign(1, f) < 0 else 'false'
    if math.isinf(f): return 'S754_infinity ' + s
    if f == 0: return 'S754_zero ' + s
    m, e = math.frexp(abs(f))
    m, e = int(m * 2 ** 53), e - 53
    while e < -1074:
        m, e = m // 2, e + 1
    return 'S754_finite %s %d (%d)' % (s, m, e)

def res(f, *errs):
    try:
        return 'Ok ' + f()
    except Exception as x:
        for cls, name in errs:
            if isinstance(x, cls): return 'Err ' + name
        raise

out = []
def table(name, ty, check, rows, doc):
    out.append('(** %s *)' % doc)
    out.append('Definition %s_cases : list (%s) := [\n  %s].' % (name, ty, ';\n  '.join('(%s)' % r for r in rows)))
    out.append('Example py_%s : forallb (fun c => %s) %s_cases = true.\nProof. vm_compute. reflexivity. Qed.\n' % (name, check, name))

def pick(alphabet, lo, hi):
    return [R.choice(alphabet) for _ in range(R.randint(lo, hi))]

# integers
edges = [0, 1, -1, 127, 128, 255, 256, 65535, 65536, 2**31 - 1, 2**31, -2**31, -2**31 - 1, 2**32 - 1, 2**32]
rows = []
for n in edges + [R.randint(-2**33, 2**33) >> R.randint(0, 33) for _ in range(N)]:
    for k, f in ((1, 'B'), (2, 'H'), (4, 'I')):
        rows.append('%d%%nat, %s, %s' % (k, z(n), res(lambda: codes(struct.pack('<' + f, n)), (struct.error, 'EStruct'))))
table('pack_u', 'nat * Z * res bytes', "let '(k, n, r) := c in same bytes_eqb (pack_u k n) r", rows, "struct.pack of unsigned integers")
rows = ['%s, %s' % (z(n), res(lambda: codes(struct.pack('<i', n)), (struct.error, 'EStruct')))
        for n in edges + [R.randint(-2**33, 2**33) >> R.randint(0, 33) for _ in range(N)]]
table('pack_i32', 'Z * res bytes', "let '(n, r) := c in same bytes_eqb (pack_i32 n) r", rows, "struct.pack('<i')")
rows = []
for _ in range(N):
    b = pick(range(256), 4, 4)
    rows.append('%s, %s' % (codes(b), z(struct.unpack('<i', bytes(b))[0])))
table('unpack_i32', 'bytes * Z', "let '(b, n) := c in Z.eqb (unpack_i32 b) n", rows, "struct.unpack('<i')")
rows = []
for _ in range(N):
    n, b = R.randint(0, 8), pick(range(256), 0, 8)
    rows.append('%d%%nat, %s, %s' % (n, codes(b), codes(struct.pack('%ds' % n, bytes(b)))))
table('pack_s', 'nat * bytes * bytes', "let '(n, b, r) := c in bytes_eqb (pack_s n b) r", rows, "struct.pack('<ns')")

# floats
def some_float():
    k = R.randint(0, 5)
    if k == 0: return struct.unpack('<d', R.getrandbits(64).to_bytes(8, 'little'))[0]
    if k == 1: return struct.unpack('<f', R.getrandbits(32).to_bytes(4, 'little'))[0]
    if k == 2: return R.uniform(-1, 1) * 2.0 ** R.randint(-152, 129)
    if k == 3: return float(R.randint(-2**60, 2**60) >> R.randint(0, 60))
    if k == 4: return (2 * R.getrandbits(24) + 1) * 2.0 ** R.randint(-160, 103)     # half way
    return R.choice([0.0, -0.0, math.inf, -math.inf, 2.0**128, 2.0**128 - 2.0**103, math.nextafter(2.0**128 - 2.0**103, 0),
                     2.0**-149, 2.0**-150, math.nextafter(2.0**-150, 1), 2.0**-126, 5e-324, 1.7976931348623157e308])
fs = [f for f in (some_float() for _ in range(4 * N)) if f == f]
rows = ['%s, %s' % (flt(f), res(lambda: codes(struct.pack('<f', f)), (OverflowError, 'EOverflow'))) for f in fs]
table('pack_f32', 'pyfloat * res bytes', "let '(f, r) := c in same bytes_eqb (pack_f32 f) r", rows, "struct.pack('<f')")
rows = []
for _ in range(2 * N):
    b = list(R.getrandbits(32).to_bytes(4, 'little'))
    if R.random() < .3: b[3], b[2] = R.choice([0, 128]), R.choice([0, 1, 127, 128])
    if R.random() < .1: b[3], b[2] = R.choice([127, 255]), R.choice([128, 129, 192])
    rows.append('%s, %s' % (codes(b), flt(struct.unpack('<f', bytes(b))[0])))
table('unpack_f32', 'bytes * pyfloat', "let '(b, f) := c in sf_eqb (unpack_f32 b) f", rows, "struct.unpack('<f')")
rows = []
for _ in range(2 * N):
    a, b = ''.join(pick('0123456789', 1, R.choice([3, 20, 40]))), ''.join(pick('0123456789', 1, R.choice([3, 20, 40])))
    if R.random() < .1: a = a + '0' * R.randint(250, 300)
    if R.random() < .1: a, b = '0', '0' * R.randint(290, 320) + b
    s = R.random() < .4
    rows.append('%s, %s' % (codes(('-' if s else '') + a + '.' + b), flt(float(('-' if s else '') + a + '.' + b))))
table('float', 'str * pyfloat', "let '(s, f) := c in match py_float U s with Ok g => sf_eqb g f | Err _ => false end", rows, "float() of the numbers the lexer reads")
rows = []
def num():
    if R.random() < .5:
        n = R.choice([R.randint(-5, 5), R.randint(-2**70, 2**70), 2**53 + R.randint(-2, 2), 2**1024, -2**1025])
        return n, 'NInt (%d)' % n
    f = R.choice([some_float(), float(R.randint(-5, 5)), 2.0**53, float('nan'), R.randint(-10, 10) / 2])
    return f, 'NFloat (%s)' % flt(f)
for _ in range(4 * N):
    (a, x), (b, y) = num(), num()
    if R.random() < .2 and a == a and not (isinstance(a, float) and math.isinf(a)):
        b = int(a) + R.randint(-1, 1); y = 'NInt (%d)' % b
    rows.append('%s, %s, [%s]' % (x, y, ';'.join(str(v).lower() for v in (a == b, a < b, a > b, a <= b, a >= b, bool(a)))))
table('compare', 'num * num * list bool', "let '(a, b, l) := c in leqb Bool.eqb [num_eqb a b; num_ltb a b; num_gtb a b; num_leb a b; num_geb a b; num_truth a] l",
      rows, "==, <, >, <=, >= and bool() of numbers")

# text
def chars():
    k = R.randint(0, 6)
    return R.choice([R.randint(0, 127), R.randint(128, 2047), R.randint(2048, 65535), R.randint(65536, 0x10ffff),
                     R.randint(0xd7f0, 0xe00f), 127 + R.randint(0, 2), 65535 + R.randint(0, 1)])
rows = []
for _ in range(2 * N):
    s = ''.join(chr(chars()) for _ in range(R.randint(0, 5)))
    rows.append('%s, %s' % (codes(s), res(lambda: codes(s.encode('utf-8')), (UnicodeEncodeError, 'EUnicodeEncode'))))
table('utf8_encode', 'str * res bytes', "let '(s, r) := c in same bytes_eqb (utf8_encode s) r", rows, "str.encode('utf-8')")
rows = []
lead = [0, 65, 127, 128, 143, 144, 159, 160, 175, 191, 192, 193, 194, 223, 224, 225, 236, 237, 238, 239, 240, 241, 243, 244, 245, 247, 248, 255]
def utf():
    if R.random() < .5:
        b = bytearray(''.join(chr(x) for x in (chars() for _ in range(R.randint(1, 4))) if not 0xd800 <= x < 0xe000).encode())
        if b and R.random() < .5: b[R.randrange(len(b))] = R.choice(lead)
        if b and R.random() < .3: del b[R.randrange(len(b))]
        return bytes(b)
    x = R.choice(lead)
    return bytes([x] + pick(lead[3:10], R.randint(0, 3), 3) + pick(lead, 0, 1))
for _ in range(6 * N):
    b = utf()
    rows.append('%s, %s' % (codes(b), res(lambda: codes(b.decode('utf-8')), (UnicodeDecodeError, 'EUnicodeDecode'))))
table('utf8_decode', 'bytes * res str', "let '(b, r) := c in same str_eqb (utf8_decode b) r", rows, "bytes.decode('utf-8')")
rows = []
for _ in range(N):
    b = bytes(pick(range(256), 0, 9))
    rows.append('%s, %s' % (codes(b), codes(base64.b64encode(b))))
table('b64encode', 'bytes * bytes', "let '(b, r) := c in bytes_eqb (b64encode b) r", rows, "base64.b64encode")
rows = []
for _ in range(6 * N):
    s = ''.join(pick('AQZazc059+/' + '==' * R.randint(0, 3) + R.choice(['', ' -\n_\x7f']), 0, 12))
    if R.random() < .3:
        t = list(base64.b64encode(bytes(pick(range(256), 0, 7))).decode())
        if t and R.random() < .7: t.insert(R.randint(0, len(t)), R.choice('=A \n*'))
        s = ''.join(t)
    if R.random() < .05: s += chr(R.choice([128, 233, 8364]))
    rows.append('%s, %s' % (codes(s), res(lambda: codes(base64.b64decode(s)), (binascii.Error, 'EBinascii'), (ValueError, 'EValue'))))
table('b64decode', 'str * res bytes', "let '(s, r) := c in same bytes_eqb (b64decode_str s) r", rows, "base64.b64decode of a str")
rows = []
for _ in range(N):
    b = bytes(pick([9, 10, 13, 0, 31, 32, 34, 39, 92, 65, 126, 127, 128, 255] + list(range(256)), 0, 9))
    rows.append('%s, %s, %s' % (codes(b), codes('%s' % b), codes(binascii.hexlify(b))))
table('bytes', 'bytes * str * bytes', "let '(b, s, h) := c in str_eqb (bytes_str b) s && bytes_eqb (hexlify b) h", rows, "'%s' of bytes, binascii.hexlify")
rows = []
for _ in range(2 * N):
    s = ''.join(chr(c) for c in pick([9, 10, 13, 0, 31, 32, 34, 39, 92, 65, 126, 127, 128, 160, 233, 0x200b, 0x20ac, 0xd800, 0xffff, 0x1f600, 0xe0001, 0x10ffff] + list(range(128)), 0, 9))
    p = sorted({ord(c) for c in s if ord(c) > 127 and c.isprintable()})
    rows.append('%s, %s, %s' % (codes(s), codes(p), codes(repr(s))))
table('repr', 'str * list N * str', "let '(s, p, r) := c in str_eqb (str_repr (fun x => existsb (N.eqb x) p) s) r", rows, "repr() of a str; the printable characters beyond ASCII are given")
rows = ['%s, %s, %s' % (z(n), codes(str(n)), codes(('0x%0.2X' % abs(n))[2:]))
        for n in edges + [9, 10, -10, 99, 100, 15, 16] + [R.randint(-2**200, 2**200) >> R.randint(0, 200) for _ in range(N)]]
table('str_int', 'Z * str * str', "let '(n, s, h) := c in str_eqb (str_of_Z n) s && str_eqb (serial_hex (Z.abs n)) h", rows, "str() and '%X' of an int")
rows = []
for _ in range(6 * N):
    base = R.choice([10, 16])
    sp = ''.join(pick(' \t\n\x0b\x1c\x1f', 0, 1))
    s = sp + ''.join(pick('+-', 0, 1)) + R.choice(['', '', '0', '0x', '0X', '0x_', '0b', '_']) + ''.join(pick('0123456789' + R.choice(['', '_', 'aF', ' _-+.gGzZ\0'] ), 0, 5)) + R.choice(['', '', ' ', '\n', '_', '\x1d'])
    rows.append('%d%%N, %s, %s' % (base, codes(s), res(lambda: z(int(s, base)), (ValueError, 'EValue'))))
table('int', 'N * str * res Z', "let '(b, s, r) := c in same Z.eqb (int_base U b s) r", rows, "int(text, 10) and int(text, 16)")
rows = []
for _ in range(N):
    s = ''.join(chr(c) for c in pick(list(range(8, 15)) + list(range(27, 35)) + [133, 0, 65, 91, 96, 97, 122, 123, 90, 64], 0, 8) if c < 128)
    rows.append('%s, %s, %s, %s' % (codes(s), codes(s.strip()), codes(s.lower()), codes(s.upper())))
table('strip', 'str * str * str * str', "let '(s, a, l, u) := c in str_eqb (py_strip U s) a && str_eqb (py_lower U s) l && str_eqb (py_upper U s) u", rows, "strip, lower and upper of ASCII text")
rows = ['%s, [%s]' % (z(c), ';'.join(str(v).lower() for v in (chr(c).isspace(), chr(c).isalpha(), chr(c).isdigit()))) for c in range(128)]
table('classes', 'Z * list bool', "let '(n, l) := c in let x := Z.to_N n in leqb Bool.eqb [isspace U x; isalpha U x; isdigit U x] l", rows, "isspace, isalpha and isdigit, all of ASCII")

# configparser
def opt_text():
    return ''.join(R.choice(['a', 'x y', '%%', '%(b)s', '%(C)s', '%(a)s', '%(d)s', '%(zz)s', '%', '%(b', '%(b)', '%()s', ')s', '(b)s', '%(b)d', '%x', '%(b)sx'][:R.choice([8, 8, 8, 17])])
                   for _ in range(R.randint(0, 3)))
rows = []
for i in range(6 * N):
    d = {k: opt_text() for k in 'abcd' if R.random() < .5}
    s = {k: opt_text() for k in 'abcd' if R.random() < .6}
    if i % 6 == 0:      # a chain around the depth limit
        n = R.randint(7, 12)
        s = {'a': '%(k1)s'}
        s.update({'k%d' % j: '%%(k%d)s' % (j + 1) for j in range(1, n)})
        s['k%d' % n] = R.choice(['end', '%%'])
    cp = configparser.ConfigParser()
    cp._defaults.update(d)              # the parsed file
    cp.add_section('S'); cp._sections['S'].update(s)
    key = R.choice('aAbD') if i % 6 else 'A'
    try:
        v = cp['S'].get(key, None)
        r = 'CVal None' if v is None else 'CVal (Some %s)' % codes(v)
    except configparser.InterpolationSyntaxError: r = 'CErr CSyntax'
    except configparser.InterpolationMissingOptionError: r = 'CErr CMissing'
    except configparser.InterpolationDepthError: r = 'CErr CDepth'
    opts = lambda m: '[' + ';'.join('(%s, %s)' % (codes(k), codes(t)) for k, t in m.items()) + ']'
    rows.append('%s, %s, %s, %s' % (opts(d), opts(s), codes(key), r))
table('config', 'options * options * str * cres (option str)',
      "let '(d, s, k, r) := c in same_c (conf_get U {| f_default := d; f_sections := [] |} s k) r", rows, "SectionProxy.get with interpolation")

# ini files
def ini_line():
    k, i = R.randint(0, 11), R.choice(['', '', '', '', ' ', '  ', '\t', '   '])
    if k <= 1: return i + '[' + R.choice(['A', 'B', 'DEFAULT', 'a b', 'x]y', ']', '']) + ']' + R.choice(['', '', '', ' ; c', 'x'])
    if k == 2: return i + R.choice('#;') + ' c=1'
    if k == 3: return R.choice(['', ' ', '\t  '])
    if k == 4: return i + R.choice(['word', '[x', 'more text', '=v', ':', ' : b'])
    return (i + R.choice(['a', 'b', 'A', 'k1', 'k 2', 'c', 'd', 'e', 'f', 'g']) + R.choice(['=', ':', ' = ', ' : ', '\t=  '])
            + R.choice(['', 'v', 'x y ', '1=2', 'a:b', '#z', 'v ; c', '[q]']))
rows = []
path = tempfile.mktemp()
for _ in range(N):
    ls = [ini_line() for _ in range(R.randint(0, 7))]
    if R.random() < .8: ls = [R.choice(['[A]', '[DEFAULT]'])] + ls
    nl = R.choice(['\n', '\n', '\r\n', '\r'])
    t = nl.join(ls) + (nl if R.random() < .6 else '')
    if R.random() < .1: t = t.replace(' ', chr(R.choice([11, 12, 28, 31, 13])))
    with open(path, 'wb') as f: f.write(t.encode())
    cp = configparser.ConfigParser()
    try:
        cp.read(path)
        opts = lambda m: '[' + ';'.join('(%s, %s)' % (codes(a), codes(b)) for a, b in m.items()) + ']'
        r = 'inl {| f_default := %s; f_sections := [%s] |}' % (opts(cp._defaults), ';'.join('(%s, %s)' % (codes(n), opts(m)) for n, m in cp._sections.items()))
    except configparser.MissingSectionHeaderError: r = 'inr INoHeader'
    except configparser.DuplicateSectionError: r = 'inr ISection'
    except configparser.DuplicateOptionError: r = 'inr IOption'
    except configparser.ParsingError: r = 'inr IParsing'
    rows.append('%s, %s' % (codes(t), r))
os.unlink(path)
table('ini', 'str * (conf_file + ini_err)', "same_f (read_text U (fst c)) (snd c)", rows, "ConfigParser.read")

print('''(** * PyTests: the model of Python's library on arguments with known results

    Written by tools/gen_py_tests.py, which asks CPython %s for the results on random arguments.  These are
    tests of the model, not proofs. *)

From Coq Require Import NArith ZArith List Bool String.
From Coq Require Import Floats.SpecFloat.
From Verif Require Import PyBase PyNum Struct Lexer AttCert Config Ini AAuth Show AAuthLog AAuthDemo.
Import ListNotations.
Open Scope Z_scope.

Definition U : unicode := ascii_only.
Definition bytes_eqb : bytes -> bytes -> bool := leqb N.eqb.
Definition err_eqb (a b : exc) : bool :=
  match a, b with
  | EStruct, EStruct | EOverflow, EOverflow | EUnicodeEncode, EUnicodeEncode | EUnicodeDecode, EUnicodeDecode
  | EBinascii, EBinascii | EValue, EValue => true
  | _, _ => false
  end.
Definition same {A} (e : A -> A -> bool) (a b : res A) : bool :=
  match a, b with Ok x, Ok y => e x y | Err x, Err y => err_eqb x y | _, _ => false end.
Definition same_c (a b : cres (option str)) : bool :=
  match a, b with
  | CVal None, CVal None => true
  | CVal (Some x), CVal (Some y) => str_eqb x y
  | CErr CSyntax, CErr CSyntax | CErr CMissing, CErr CMissing | CErr CDepth, CErr CDepth => true
  | _, _ => false
  end.
Definition same_o : options -> options -> bool := leqb (fun a b => str_eqb (fst a) (fst b) && str_eqb (snd a) (snd b)).
Definition same_f (a b : conf_file + ini_err) : bool :=
  match a, b with
  | inl x, inl y => same_o (f_default x) (f_default y) && leqb (fun a b => str_eqb (fst a) (fst b) && same_o (snd a) (snd b)) (f_sections x) (f_sections y)
  | inr INoHeader, inr INoHeader | inr ISection, inr ISection | inr IOption, inr IOption | inr IParsing, inr IParsing => true
  | _, _ => false
  end.
(** Equality of representations. *)
Definition sf_eqb (a b : pyfloat) : bool :=
  match a, b with
  | S754_zero s, S754_zero t => Bool.eqb s t
  | S754_infinity s, S754_infinity t => Bool.eqb s t
  | S754_nan, S754_nan => true
  | S754_finite s m e, S754_finite t n f => Bool.eqb s t && Pos.eqb m n && Z.eqb e f
  | _, _ => false
  end.
''' % sys.version.split()[0])
print('\n'.join(out))
