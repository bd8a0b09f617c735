#!/usr/bin/env python3
"""Turns the conformance suite of the repository into Coq terms.

usage: cases.py REPO > rocq/theories/SuiteData.v

Reads tests/harness/cases/**/*.proto (descriptors and rules) and
tests/harness/executor/cases.go (test cases) and prints the schema and the list
of test cases.  Nothing is run: both are parsed as text.  Whatever is not
understood is an error.
"""
import glob, os, re, sys
from fractions import Fraction

REPO = sys.argv[1]

# ------------------------------------------------------------------ lexing

TOK = re.compile(r'''
  (?P<ws>\s+|//[^\n]*)
 |(?P<str>"(?:[^"\\\n]|\\.)*"|`[^`]*`)
 |(?P<num>0[xX][0-9a-fA-F]+|[0-9]+(?:\.[0-9]*)?(?:[eE][+-]?[0-9]+)?|\.[0-9]+)
 |(?P<id>[A-Za-z_][A-Za-z0-9_]*)
 |(?P<sym>[^\s\w])
''', re.X)

def unquote(t):
    """The bytes of a string literal of Go or of a .proto file."""
    if t[0] == '`':
        return t[1:-1].encode()
    out, s, i = bytearray(), t[1:-1], 0
    while i < len(s):
        c = s[i]
        if c != '\\':
            out += c.encode(); i += 1; continue
        e = s[i+1]
        if e == 'x':
            out.append(int(s[i+2:i+4], 16)); i += 4
        elif e == 'u':
            out += chr(int(s[i+2:i+6], 16)).encode(); i += 6
        elif e in '01234567':
            out.append(int(s[i+1:i+4], 8)); i += 4
        else:
            out += {'n': b'\n', 't': b'\t', 'r': b'\r', '\\': b'\\', '"': b'"', "'": b"'",
                    'a': b'\a', 'b': b'\b', 'f': b'\f', 'v': b'\v'}[e]
            i += 2
    return bytes(out)

class Lex:
    def __init__(self, text, name):
        self.toks, self.i, self.name = [], 0, name
        pos, line = 0, 1
        while pos < len(text):
            m = TOK.match(text, pos)
            if not m:
                sys.exit('%s:%d: cannot read %r' % (name, line, text[pos:pos+20]))
            k = m.lastgroup
            if k != 'ws':
                self.toks.append((k, m.group(), line))
            line += m.group().count('\n')
            pos = m.end()
    def peek(self, d=0):
        return self.toks[self.i+d][1] if self.i+d < len(self.toks) else None
    def kind(self):
        return self.toks[self.i][0]
    def line(self):
        return self.toks[self.i][2]
    def next(self):
        t = self.toks[self.i]; self.i += 1
        return t[1]
    def want(self, *ts):
        for t in ts:
            if self.peek() != t:
                sys.exit('%s:%d: %r instead of %r' % (self.name, self.line(), self.peek(), t))
            self.i += 1
    def eat(self, t):
        if self.peek() == t:
            self.i += 1
            return True
        return False

# ------------------------------------------------------------------ .proto

class Message:
    def __init__(self, name, full, src):
        self.name, self.full, self.src = name, full, src
        self.fields, self.oneofs, self.disabled, self.ignored = [], [], False, False

class Field:
    def __init__(self, name, label, typ, rules):
        self.name, self.label, self.typ, self.rules = name, label, typ, rules

MESSAGES, ENUMS = [], []      # in order of declaration, innermost last

def dotted(lx):
    n = ('.' if lx.eat('.') else '') + lx.next()
    while lx.eat('.'):
        n += '.' + lx.next()
    return n

def scalar(lx):
    """A constant: a string, a number (exact), an identifier."""
    if lx.kind() == 'str':
        return unquote(lx.next())
    neg = lx.eat('-')
    if lx.kind() == 'num':
        t = lx.next()
        v = Fraction(int(t, 16)) if t[:2] in ('0x', '0X') else Fraction(t)
        return -v if neg else v
    t = lx.next()
    return {'true': True, 'false': False}.get(t, ('id', t))

class Agg(list):
    """The fields of a message in text format."""

def aggregate(lx):
    """{ name: value, name { ... }, name: [v, ...] } as a list of pairs."""
    lx.want('{')
    out = Agg()
    while not lx.eat('}'):
        n = lx.next()
        colon = lx.eat(':')
        if lx.peek() == '{':
            out.append((n, aggregate(lx)))
        elif lx.eat('['):
            vs = []
            while not lx.eat(']'):
                vs.append(aggregate(lx) if lx.peek() == '{' else scalar(lx)); lx.eat(',')
            out.append((n, vs))
        else:
            assert colon
            out.append((n, scalar(lx)))
        lx.eat(',') or lx.eat(';')
    return out

def option(lx):
    """(validate.x).a.b = value, as the path [x, a, b] and the value."""
    if lx.eat('('):
        n = dotted(lx); lx.want(')')
        assert n.startswith('validate.'), n
        path = [n[len('validate.'):]]
        while lx.eat('.'):
            path.append(lx.next())
    else:
        path = [dotted(lx)]
    lx.want('=')
    return path, (aggregate(lx) if lx.peek() == '{' else scalar(lx))

def merge(tree, path, v):
    """Sets a field of a rule message, given as a dictionary."""
    for p in path[:-1]:
        tree = tree.setdefault(p, {})
    if isinstance(v, Agg):
        tree = tree.setdefault(path[-1], {})
        for n, w in v:
            merge(tree, [n], w)
    else:
        tree[path[-1]] = v

def field_opts(lx):
    rules = {}
    if lx.eat('['):
        while True:
            path, v = option(lx)
            assert path[0] == 'rules', path
            merge(rules, path[1:], v)
            if lx.eat(']'):
                break
            lx.want(',')
    lx.want(';')
    return rules

def plain_field(lx, label):
    t = dotted(lx); n = lx.next(); lx.want('='); lx.next()
    return Field(n, label, t, field_opts(lx))

def enum(lx, pkg, scope):
    n = lx.next()
    lx.want('{')
    vals = []
    while not lx.eat('}'):
        if lx.eat('option'):
            path, v = option(lx)
            assert path == ['allow_alias']
        else:
            k = lx.next(); lx.want('='); vals.append((k, int(scalar(lx))))
        lx.want(';')
    ENUMS.append((pkg, scope + [n], vals))

def message(lx, pkg, scope):
    src = '%s:%d' % (lx.name, lx.line())
    n = lx.next()
    m = Message(scope + [n], pkg + '.' + '.'.join(scope + [n]), src)
    m.pkg = pkg
    MESSAGES.append(m)
    lx.want('{')
    while not lx.eat('}'):
        if lx.eat('option'):
            path, v = option(lx)
            assert path in (['disabled'], ['ignored']) and isinstance(v, bool)
            setattr(m, path[0], v)
            lx.want(';')
        elif lx.peek() == 'message':
            lx.next(); message(lx, pkg, scope + [n])
        elif lx.peek() == 'enum':
            lx.next(); enum(lx, pkg, scope + [n])
        elif lx.eat('oneof'):
            on = lx.next(); lx.want('{')
            fs, req = [], None
            while not lx.eat('}'):
                if lx.eat('option'):
                    path, v = option(lx)
                    assert path == ['required']
                    req = v
                    lx.want(';')
                else:
                    fs.append(plain_field(lx, 'one'))
            m.oneofs.append((on, fs, req))
        elif lx.eat('map'):
            lx.want('<'); k = dotted(lx); lx.want(','); v = dotted(lx); lx.want('>')
            fn = lx.next(); lx.want('='); lx.next()
            m.fields.append(Field(fn, 'map', (k, v), field_opts(lx)))
        elif lx.eat('repeated'):
            m.fields.append(plain_field(lx, 'rep'))
        else:
            m.fields.append(plain_field(lx, 'one'))

def proto_file(path):
    rel = os.path.relpath(path, REPO)
    lx = Lex(open(path).read(), rel)
    pkg = None
    while lx.peek() is not None:
        t = lx.next()
        if t == 'syntax':
            lx.want('=', '"proto3"', ';')
        elif t == 'package':
            pkg = dotted(lx); lx.want(';')
        elif t == 'option':
            option(lx); lx.want(';')
        elif t == 'import':
            lx.next(); lx.want(';')
        elif t == 'message':
            message(lx, pkg, [])
        elif t == 'enum':
            enum(lx, pkg, [])
        else:
            sys.exit('%s: %r' % (rel, t))

BASE = 'tests.harness.cases'
for p in sorted(glob.glob(REPO + '/tests/harness/cases/**/*.proto', recursive=True)):
    proto_file(p)

# ------------------------------------------------------------------ names

def go_package(pkg):
    assert pkg == BASE or pkg.startswith(BASE + '.')
    return pkg[len(BASE)+1:]

def type_name(pkg, scope):
    """The name in the schema: Go's, qualified by the package unless it is the package [cases]."""
    q = go_package(pkg)
    return (q + '.' if q else '') + '_'.join(scope)

def camel(s):
    """protoc-gen-go's GoCamelCase."""
    out, i = '', 0
    if s[0] == '_':
        out, i = 'X', 1
    while i < len(s):
        c = s[i]
        if c == '_' and i+1 < len(s) and s[i+1].islower():
            i += 1; continue
        if c.isdigit():
            out += c; i += 1; continue
        if c.islower():
            c = c.upper()
        out += c; i += 1
        while i < len(s) and s[i].islower():
            out += s[i]; i += 1
    return out

BYFULL = {m.full: ('msg', type_name(m.pkg, m.name)) for m in MESSAGES}
BYFULL.update({p + '.' + '.'.join(s): ('enum', type_name(p, s)) for p, s, _ in ENUMS})
ENUMVALS = {}                 # Go constants
for p, s, vals in ENUMS:
    q = go_package(p) or 'cases'
    for k, z in vals:
        # a constant is prefixed by the enum, or by the enclosing message if nested
        pre = s if len(s) == 1 else s[:-1]
        ENUMVALS[q + '.' + '_'.join(pre) + '_' + k] = z
MSGS = {type_name(m.pkg, m.name): m for m in MESSAGES}

NUM = {'float': 'KFloat', 'double': 'KDouble', 'int32': 'KInt32', 'int64': 'KInt64', 'uint32': 'KUInt32',
       'uint64': 'KUInt64', 'sint32': 'KSInt32', 'sint64': 'KSInt64', 'fixed32': 'KFixed32',
       'fixed64': 'KFixed64', 'sfixed32': 'KSFixed32', 'sfixed64': 'KSFixed64'}
WRAP = {'DoubleValue': ('WkDouble', 'double'), 'FloatValue': ('WkFloat', 'float'), 'Int64Value': ('WkInt64', 'int64'),
        'UInt64Value': ('WkUInt64', 'uint64'), 'Int32Value': ('WkInt32', 'int32'), 'UInt32Value': ('WkUInt32', 'uint32'),
        'BoolValue': ('WkBool', 'bool'), 'StringValue': ('WkString', 'string'), 'BytesValue': ('WkBytes', 'bytes')}

def resolve(m, t):
    """The type of a field of the message [m]: scalar, or a kind and a name."""
    if t in NUM or t in ('bool', 'string', 'bytes'):
        return (t, None)
    if t.startswith('google.protobuf.'):
        n = t[len('google.protobuf.'):]
        if n in WRAP:
            return ('wrap', n)
        return ({'Any': 'any', 'Duration': 'dur', 'Timestamp': 'ts'}[n], None)
    scope = (m.pkg + '.' + '.'.join(m.name)).split('.')
    while True:
        q = '.'.join(scope + [t])
        if q in BYFULL:
            return BYFULL[q]
        scope.pop()           # fails if the name is not known

# ------------------------------------------------------------------ Coq terms

def bs(b):
    if b and all(32 <= c < 127 for c in b):
        return '(bs "%s")' % b.decode().replace('"', '""')
    return '[' + ';'.join(str(c) for c in b) + ']%N'

def string(s):
    return '"%s"' % s

def z(n):
    assert Fraction(n).denominator == 1
    return '(%d)' % n if n < 0 else '%d' % n

def sfloat(x, prec, emax):
    """The nearest float to an exact number, ties to even."""
    if x == 0:
        return 'S754_zero false'
    neg, a = x < 0, abs(x)
    e = 0
    while a >= Fraction(2) ** (prec + e):
        e += 1
    while a < Fraction(2) ** (prec - 1 + e):
        e -= 1
    emin = 3 - emax - prec
    e = max(e, emin)
    q = a / Fraction(2) ** e
    mant = round(q)           # half to even
    if mant == 2 ** prec:
        mant, e = 2 ** (prec-1), e + 1
    assert mant > 0 and e <= emax - prec
    return 'S754_finite %s %d (%d)' % (str(neg).lower(), mant, e)

def num(kind, x):
    if kind == 'float':
        return '(NF (%s))' % sfloat(x, 24, 128)
    if kind == 'double':
        # a number in a .proto file and a constant in Go are rounded from the text
        return '(NF (%s))' % sfloat(x, 53, 1024)
    return '(NI %s)' % z(x)

def some(x):
    return '(Some %s)' % x
def opt(d, k, f):
    return some(f(d.pop(k))) if k in d else 'None'
def lst(d, k, f):
    v = d.pop(k, [])
    return '[%s]' % '; '.join(f(x) for x in (v if isinstance(v, list) else [v]))
def boolean(b):
    assert isinstance(b, bool)
    return str(b).lower()
def nat(n):
    assert n >= 0
    return z(n) + '%N'
def sn(d):
    d = dict(d)
    s, n = d.pop('seconds', 0), d.pop('nanos', 0)
    assert not d
    return '(mkSN %s %s)' % (z(s), z(n))

def rules(d):
    """FieldRules."""
    d = {k: (dict(v) if isinstance(v, dict) else v) for k, v in d.items()}
    msg = 'None'
    if 'message' in d:
        r = d.pop('message')
        msg = some('(mkMessageRules %s %s)' % (opt(r, 'skip', boolean), opt(r, 'required', boolean)))
        assert not r, r
    typ = 'None'
    assert len(d) <= 1, d
    for k, r in d.items():
        if k in NUM:
            f = lambda x: num(k, x)
            typ = 'RNum %s (mkNumRules %s %s %s)' % (NUM[k], ' '.join(opt(r, n, f) for n in ('const', 'lt', 'lte', 'gt', 'gte')),
                ' '.join(lst(r, n, f) for n in ('in', 'not_in')), opt(r, 'ignore_empty', boolean))
        elif k == 'bool':
            typ = 'RBool %s' % opt(r, 'const', boolean)
        elif k == 'string':
            a = [opt(r, 'const', bs)] + [opt(r, n, nat) for n in ('len', 'min_len', 'max_len', 'len_bytes', 'min_bytes', 'max_bytes')]
            a += [opt(r, n, bs) for n in ('pattern', 'prefix', 'suffix', 'contains', 'not_contains')] + [lst(r, n, bs) for n in ('in', 'not_in')]
            wk = 'None'
            for n, c in (('email', 'WEmail'), ('hostname', 'WHostname'), ('ip', 'WIp'), ('ipv4', 'WIpv4'), ('ipv6', 'WIpv6'),
                         ('uri', 'WUri'), ('uri_ref', 'WUriRef'), ('address', 'WAddress'), ('uuid', 'WUuid')):
                if n in r:
                    wk = some('(%s %s)' % (c, boolean(r.pop(n))))
            if 'well_known_regex' in r:
                wk = some('(WRegex %s)' % {'HTTP_HEADER_NAME': 'KRHeaderName', 'HTTP_HEADER_VALUE': 'KRHeaderValue'}[r.pop('well_known_regex')[1]])
            typ = 'RString (mkStringRules %s %s %s %s)' % (' '.join(a), wk, opt(r, 'strict', boolean), opt(r, 'ignore_empty', boolean))
        elif k == 'bytes':
            a = [opt(r, 'const', bs)] + [opt(r, n, nat) for n in ('len', 'min_len', 'max_len')]
            a += [opt(r, n, bs) for n in ('pattern', 'prefix', 'suffix', 'contains')] + [lst(r, n, bs) for n in ('in', 'not_in')]
            wk = 'None'
            for n, c in (('ip', 'BIp'), ('ipv4', 'BIpv4'), ('ipv6', 'BIpv6')):
                if n in r:
                    wk = some('(%s %s)' % (c, boolean(r.pop(n))))
            typ = 'RBytes (mkBytesRules %s %s %s)' % (' '.join(a), wk, opt(r, 'ignore_empty', boolean))
        elif k == 'enum':
            typ = 'REnum (mkEnumRules %s %s %s %s)' % (opt(r, 'const', z), opt(r, 'defined_only', boolean), lst(r, 'in', z), lst(r, 'not_in', z))
        elif k == 'repeated':
            typ = 'RRepeated (mkRepRules %s %s %s %s %s)' % (opt(r, 'min_items', nat), opt(r, 'max_items', nat),
                opt(r, 'unique', boolean), opt(r, 'items', rules), opt(r, 'ignore_empty', boolean))
        elif k == 'map':
            typ = 'RMap (mkMapRules %s %s %s %s %s %s)' % (opt(r, 'min_pairs', nat), opt(r, 'max_pairs', nat),
                opt(r, 'no_sparse', boolean), opt(r, 'keys', rules), opt(r, 'values', rules), opt(r, 'ignore_empty', boolean))
        elif k == 'any':
            typ = 'RAny (mkAnyRules %s %s %s)' % (opt(r, 'required', boolean), lst(r, 'in', bs), lst(r, 'not_in', bs))
        elif k == 'duration':
            typ = 'RDuration (mkDurationRules %s %s %s)' % (opt(r, 'required', boolean),
                ' '.join(opt(r, n, sn) for n in ('const', 'lt', 'lte', 'gt', 'gte')), ' '.join(lst(r, n, sn) for n in ('in', 'not_in')))
        elif k == 'timestamp':
            typ = 'RTimestamp (mkTimestampRules %s %s %s %s %s)' % (opt(r, 'required', boolean),
                ' '.join(opt(r, n, sn) for n in ('const', 'lt', 'lte', 'gt', 'gte')),
                opt(r, 'lt_now', boolean), opt(r, 'gt_now', boolean), opt(r, 'within', sn))
        else:
            sys.exit('rules %r' % k)
        assert not r, (k, r)
        typ = some('(%s)' % typ)
    return 'fr_none' if msg == typ == 'None' else '(FR %s %s)' % (msg, typ)

def etype(t):
    k, n = t
    if k in NUM:
        return '(TNum %s)' % NUM[k]
    if k in ('msg', 'enum'):
        return '(%s %s)' % ({'msg': 'TMsg', 'enum': 'TEnum'}[k], string(n))
    if k == 'wrap':
        return '(TWrap %s)' % WRAP[n][0]
    return {'bool': 'TBool', 'string': 'TString', 'bytes': 'TBytes', 'any': 'TAny', 'dur': 'TDur', 'ts': 'TTs'}[k]

def ftype(m, f):
    if f.label == 'map':
        return '(FMap %s %s)' % tuple(etype(resolve(m, t)) for t in f.typ)
    return '(%s %s)' % ({'one': 'FOne', 'rep': 'FRep'}[f.label], etype(resolve(m, f.typ)))

def field(m, f):
    return 'mkField %s %s %s' % (string(camel(f.name)), ftype(m, f), rules(f.rules))

def msgdesc(m):
    fs = '; '.join(field(m, f) for f in m.fields)
    os_ = '; '.join('mkOneof %s [%s] %s' % (string(camel(n)), '; '.join(field(m, f) for f in fs_),
                                           'None' if r is None else some(boolean(r))) for n, fs_, r in m.oneofs)
    return 'mkMsg %s [%s] [%s] %s %s' % (string(type_name(m.pkg, m.name)), fs, os_, boolean(m.disabled), 'MNone' if m.ignored else 'MBoth')

# ------------------------------------------------------------------ cases.go

# Go values: ('nil',), ('bytes', b), ('str', b), ('bool', b), ('num', Fraction), ('now', Fraction, nanos?),
# ('struct', type or None, [(key or None, value)]), ('list', [...]), ('map', [(k, v)])

def go_type(lx):
    """The text of a type; a composite literal follows."""
    t = ''
    while lx.peek() in ('[', ']', '*', 'map'):
        if lx.eat('map'):
            lx.want('['); k = go_type(lx); lx.want(']')
            return t + 'map[' + k + ']' + go_type(lx)
        t += lx.next()
    t += lx.next()
    if lx.eat('.'):
        t += '.' + lx.next()
    return t

def composite(lx, t):
    """{...} of a known type, or of an elided one."""
    elem = None
    if t and t.startswith('[]'):
        elem = t[2:]
    if t and t.startswith('map['):
        elem = t[t.index(']')+1:]
    lx.want('{')
    xs = []
    while not lx.eat('}'):
        if lx.peek() == '{':
            xs.append((None, composite(lx, elem.lstrip('*'))))
        else:
            v = go_value(lx)
            if lx.eat(':'):
                w = composite(lx, elem.lstrip('*')) if lx.peek() == '{' else go_value(lx)
                xs.append((v, w))
            else:
                xs.append((None, v))
        lx.eat(',')
    return ('lit', t, xs)

def go_value(lx):
    v = go_atom(lx)
    while lx.peek() in ('+', '-'):
        op = lx.next(); w = go_atom(lx)
        assert w[0] == 'num'
        d = w[1] if op == '+' else -w[1]
        v = (v[0], v[1] + d) + v[2:]
    return v

def go_atom(lx):
    if lx.eat('&'):
        return go_atom(lx)
    if lx.kind() == 'str':
        return ('str', unquote(lx.next()))
    if lx.kind() == 'num' or lx.peek() == '-':
        return ('num', scalar(lx))
    if lx.peek() in ('true', 'false'):
        return ('bool', lx.next() == 'true')
    if lx.eat('nil'):
        return ('nil',)
    if lx.peek() in ('[', 'map'):
        t = go_type(lx)
        if t == '[]byte' and lx.eat('('):
            v = ('bytes', unquote(lx.next())); lx.want(')')
            return v
        return composite(lx, t)
    n = lx.next()
    if not lx.eat('.'):
        return ('id', n)
    n += '.' + lx.next()
    if n == 'time.Now':
        lx.want('(', ')', '.', 'Unix', '(', ')')
        return ('now', Fraction(0))
    if n == 'timestamppb.Now':
        lx.want('(', ')')
        return ('lit', 'timestamppb.Timestamp', [(('id', 'Seconds'), ('now', Fraction(0)))])
    if n == 'math.MaxInt32':
        return ('num', Fraction(2**31 - 1))
    if n in ENUMVALS:
        return ('num', Fraction(ENUMVALS[n]))
    if lx.peek() == '{':
        return composite(lx, n)
    sys.exit('cases.go:%d: %r' % (lx.line(), n))

def short(t):
    return t[len('cases.'):] if t.startswith('cases.') else t

def fields_of(v, allowed):
    """The fields of a struct literal, by name."""
    d = {}
    for k, w in v[2]:
        assert k and k[0] == 'id' and k[1] in allowed, (k, allowed)
        d[k[1]] = w
    return d

def integer(v):
    """Seconds: a number, or an offset from the current time."""
    if v[0] == 'now':
        return '(now %+d)' % v[1] if v[1] else 'now'
    assert v[0] == 'num'
    return z(v[1])

def sn_value(v):
    if v[0] == 'nil':
        return 'None'
    assert v[1] in ('durationpb.Duration', 'timestamppb.Timestamp'), v[1]
    d = fields_of(v, ('Seconds', 'Nanos'))
    return some('(mkSN %s %s)' % (integer(d.get('Seconds', ('num', 0))), integer(d.get('Nanos', ('num', 0)))))

def elem(t, v):
    k, n = t
    if k in NUM:
        if v is None:
            v = ('num', Fraction(0))
        assert v[0] == 'num', v
        return '(VNum %s)' % num(k, v[1])
    if k == 'enum':
        v = v or ('num', Fraction(0))
        assert v[0] == 'num'
        return '(VEnum %s)' % z(v[1])
    if k == 'bool':
        v = v or ('bool', False)
        return '(VBool %s)' % boolean(v[1])
    if k == 'string':
        v = v or ('str', b'')
        assert v[0] == 'str'
        return '(VStr %s)' % bs(v[1])
    if k == 'bytes':
        v = v or ('nil',)
        if v[0] == 'nil':
            return '(VByt [])'
        if v[0] == 'lit':
            assert v[1] == '[]byte'
            return '(VByt %s)' % bs(bytes(int(x[1]) for _, x in v[2]))
        assert v[0] == 'bytes'
        return '(VByt %s)' % bs(v[1])
    v = v or ('nil',)
    if k == 'msg':
        if v[0] == 'nil':
            return '(VMsg None)'
        assert short(v[1]) == n, (v[1], n)
        return '(VMsg (Some %s))' % msgval(MSGS[n], v)
    if k == 'wrap':
        if v[0] == 'nil':
            return '(VWrap None)'
        assert v[1] == 'wrapperspb.' + n
        return '(VWrap (Some %s))' % elem((WRAP[n][1], None), fields_of(v, ('Value',)).get('Value'))
    if k == 'any':
        if v[0] == 'nil':
            return '(VAny None)'
        assert v[1] == 'anypb.Any'
        return '(VAny (Some %s))' % bs(fields_of(v, ('TypeUrl',)).get('TypeUrl', ('str', b''))[1])
    return '(%s %s)' % ({'dur': 'VDur', 'ts': 'VTs'}[k], sn_value(v))

def value(m, f, v):
    if f.label == 'rep':
        xs = [] if v is None or v[0] == 'nil' else v[2]
        assert all(k is None for k, _ in xs)
        return 'VList [%s]' % '; '.join(elem(resolve(m, f.typ), w) for _, w in xs)
    if f.label == 'map':
        xs = [] if v is None or v[0] == 'nil' else v[2]
        kt, vt = (resolve(m, t) for t in f.typ)
        return 'VMap [%s]' % '; '.join('(%s, %s)' % (elem(kt, k), elem(vt, w)) for k, w in xs)
    return elem(resolve(m, f.typ), v)[1:-1]

def msgval(m, v):
    names = [camel(f.name) for f in m.fields] + [camel(n) for n, _, _ in m.oneofs]
    d = fields_of(v, names)
    fs = '; '.join('(%s, %s)' % (string(camel(f.name)), value(m, f, d.get(camel(f.name)))) for f in m.fields)
    os_ = []
    for n, ms, _ in m.oneofs:
        w = d.get(camel(n))
        if w is None or w[0] == 'nil':
            os_.append('(%s, None)' % string(camel(n)))
            continue
        pre = type_name(m.pkg, m.name) + '_'
        f = [f for f in ms if short(w[1]) == pre + camel(f.name)][0]
        assert len(w[2]) == 1
        k, x = w[2][0]
        assert k is None or k == ('id', camel(f.name))
        os_.append('(%s, Some (%s, %s))' % (string(camel(n)), string(camel(f.name)), value(m, f, x)))
    return '(MV [%s] [%s])' % (fs, '; '.join(os_))

def cases():
    path = 'tests/harness/executor/cases.go'
    lx = Lex(open(os.path.join(REPO, path)).read(), path)
    # the order of the sets, then the sets
    while lx.peek() != 'init':
        lx.next()
    lx.want('init', '(', ')', '{', 'sets', ':', '=', '[', ']', '[', ']', 'TestCase', '{')
    sets = []
    while not lx.eat('}'):
        sets.append(lx.next()); lx.want(',')
    while lx.peek() != 'var':
        lx.next()
    out = {}
    while lx.peek() is not None:
        lx.want('var'); name = lx.next(); lx.want('=', '[', ']', 'TestCase', '{')
        out[name] = []
        while not lx.eat('}'):
            line = lx.line()
            lx.want('{')
            title = unquote(lx.next()).decode(); lx.want(',')
            v = go_value(lx); lx.want(',')
            n = scalar(lx); lx.want('}', ',')
            out[name].append((line, title, v, int(n)))
    assert sorted(sets) == sorted(out), (sets, list(out))
    return [(s, out[s]) for s in sets]

# ------------------------------------------------------------------ output

print('''(** The conformance suite of the repository: the messages of tests/harness/cases/*.proto and
    the test cases of tests/harness/executor/cases.go, as printed by tools/cases.py, which parses
    these files.  Several .proto files make up one schema here; a message of another Go package is
    qualified by its name.  The time at which the suite is run ([time.Now().Unix()] and
    [timestamppb.Now()], its nanoseconds left out) is the parameter [now].  *)
From Coq Require Import Floats.SpecFloat.
From Verif Require Import Base Num Rules Types.
Local Open Scope string_scope.
Local Open Scope list_scope.
Local Open Scope Z_scope.
''')
print('(** tests/harness/cases/*.proto *)')
print('Definition suite_schema : schema := mkSchema [')
for i, m in enumerate(MESSAGES):
    print('  (* %s *) %s%s' % (m.src[len('tests/harness/cases/'):], msgdesc(m), ';' if i+1 < len(MESSAGES) else ''))
print('] [')
print(';\n'.join('  mkEnum %s [%s]' % (string(type_name(p, s)), '; '.join(z(v) for _, v in vals)) for p, s, vals in ENUMS))
print('] [')
print(';\n'.join('  %s' % string(type_name(m.pkg, m.name)) for m in MESSAGES if len(m.name) == 1))
print('].\n')
print('Definition suite_ignored (n : string) : bool := existsb (String.eqb n) [%s].\n' %
      '; '.join(string(type_name(m.pkg, m.name)) for m in MESSAGES if m.ignored))
print('(** tests/harness/executor/cases.go: the line of the case, the type, the message, the number of failures. *)')
names = []
for s, cs in cases():
    names.append(s)
    print('Definition suite_%s (now : Z) : list (Z * string * msgval * Z) := [' % s)
    print(';\n'.join('  (%d, %s, %s, %d)' % (line, string(short(v[1])), msgval(MSGS[short(v[1])], v), n) for line, _, v, n in cs))
    print('].')
print('\nDefinition suite_cases (now : Z) : list (Z * string * msgval * Z) :=\n  List.concat [%s].' % ';\n    '.join('suite_%s now' % n for n in names))
