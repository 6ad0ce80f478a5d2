#!/usr/bin/env python3
"""Turn the tables of the unit tests in /repo into rocq/theories/Vectors.v.

Each entry of a table becomes an Example which says that the model, run on the
entry's input, gives the entry's expected output.  The tables are read as text:
no Go code is run."""
import re, sys

REPO = '/repo/'
OUT = '/verif/rocq/theories/Vectors.v'

TOK = re.compile(r'''
   (?P<ws>\s+|//[^\n]*)
 | (?P<str>"(?:[^"\\]|\\.)*")
 | (?P<chr>'(?:[^'\\]|\\.[^']*)')
 | (?P<num>0[xX][0-9a-fA-F]+|\d+)
 | (?P<id>[^\W\d]\w*)
 | (?P<op>:=|&\^|<<|>>|\.\.\.|[][{}(),.:*&|+\-/=!<>;])
''', re.X)


def lex(text):
    toks, i, line = [], 0, 1
    while i < len(text):
        m = TOK.match(text, i)
        if not m:
            raise SyntaxError('line %d: %r' % (line, text[i:i + 20]))
        k = m.lastgroup
        if k != 'ws':
            toks.append((k, m.group(), line))
        line += m.group().count('\n')
        i = m.end()
    toks.append(('eof', '', line))
    return toks


def go_string(lit):
    """The bytes of an interpreted string literal."""
    out, s, i = b'', lit[1:-1], 0
    simple = {'n': 10, 't': 9, 'r': 13, '\\': 92, '"': 34, "'": 39, 'a': 7, 'b': 8, 'f': 12, 'v': 11}
    while i < len(s):
        if s[i] != '\\':
            out += s[i].encode(); i += 1
        elif s[i + 1] == 'x':
            out += bytes([int(s[i + 2:i + 4], 16)]); i += 4
        elif s[i + 1] == 'u':
            out += chr(int(s[i + 2:i + 6], 16)).encode(); i += 6
        elif s[i + 1] in simple:
            out += bytes([simple[s[i + 1]]]); i += 2
        else:
            raise SyntaxError(lit)
    return out


class Lit:
    """A composite literal: its type, its elements and its keyed elements."""
    def __init__(self, typ, elems, keys, line):
        self.typ, self.elems, self.keys, self.line = typ, elems, keys, line

    def __repr__(self):
        return 'Lit(%s,%r,%r)' % (self.typ, self.elems, self.keys)


class Call:
    def __init__(self, fun, args):
        self.fun, self.args = fun, args

    def __repr__(self):
        return '%s(%r)' % (self.fun, self.args)


class Name(str):
    pass


class Str(bytes):
    pass


class Parser:
    def __init__(self, toks, pos=0):
        self.t, self.i = toks, pos

    def peek(self, k=0):
        return self.t[self.i + k][1]

    def next(self):
        self.i += 1
        return self.t[self.i - 1]

    def eat(self, s):
        k, v, l = self.next()
        if v != s:
            raise SyntaxError('line %d: %r, not %r' % (l, v, s))

    def typ(self):
        """A type, as text."""
        v = self.peek()
        if v == '*':
            self.next(); return '*' + self.typ()
        if v == '[':
            self.next(); self.eat(']'); return '[]' + self.typ()
        if v == 'map':
            self.next(); self.eat('['); k = self.typ(); self.eat(']')
            return 'map[%s]%s' % (k, self.typ())
        if v == 'struct':
            self.next(); self.eat('{')
            d = 1
            while d:
                x = self.next()[1]
                d += (x == '{') - (x == '}')
            return 'struct'
        n = self.next()[1]
        while self.peek() == '.':
            self.next(); n += '.' + self.next()[1]
        return n

    def lit(self, typ):
        line = self.t[self.i][2]
        self.eat('{')
        elems, keys = [], {}
        while self.peek() != '}':
            sub = typ[2:] if typ.startswith('[]') else typ.split(']', 1)[1] if typ.startswith('map') else ''
            e = self.lit(sub.lstrip('*')) if self.peek() == '{' else self.expr()
            if self.peek() == ':':
                self.next()
                v = self.lit(sub.lstrip('*')) if self.peek() == '{' else self.expr()
                keys[e] = v
            else:
                elems.append(e)
            if self.peek() == ',':
                self.next()
        self.eat('}')
        return Lit(typ, elems, keys, line)

    PREC = {'|': 4, '+': 4, '-': 4, '*': 5, '/': 5, '<<': 5, '&': 5, '&^': 5}

    def expr(self, p=0):
        e = self.unary()
        while self.PREC.get(self.peek(), 0) > p:
            op = self.next()[1]
            e = (op, e, self.expr(self.PREC[op]))
        return e

    def unary(self):
        v = self.peek()
        if v == '-':
            self.next(); return ('-', 0, self.unary())
        if v in '&*' and v:
            self.next(); return self.unary()
        return self.primary()

    def primary(self):
        k, v, l = self.t[self.i]
        if k == 'num':
            self.next(); return int(v, 16) if v[:2] in ('0x', '0X') else int(v, 10)
        if k == 'str':
            self.next(); return Str(go_string(v))
        if k == 'chr':
            self.next(); return ord(go_string('"' + v[1:-1] + '"').decode())
        if v == '(':
            self.next(); e = self.expr(); self.eat(')'); return e
        if v in ('[', 'map', 'struct'):
            t = self.typ()
            if self.peek() == '{':
                return self.lit(t)
            self.eat('('); a = self.expr(); self.eat(')')
            return Call(t, [a])
        n = self.typ()
        if self.peek() == '{':
            return self.lit(n)
        if self.peek() == '(':
            self.next(); args = []
            while self.peek() != ')':
                args.append(self.typ() if self.peek() == '[' and n == 'make' else self.expr())
                if self.peek() == ',':
                    self.next()
            self.eat(')')
            return Call(n, args)
        return Name(n)


FILES = {}


def find(path, func, var, nth=0):
    """The rows of the nth table assigned to [var] after [func]."""
    if path not in FILES:
        FILES[path] = lex(open(REPO + path, encoding='utf-8').read())
    toks = FILES[path]
    i = 0
    if func:
        while not (toks[i][1] == 'func' and toks[i + 1][1] == func):
            i += 1
    while nth >= 0:
        i += 1
        if toks[i][1] == var and toks[i + 1][1] in (':=', '='):
            nth -= 1
    return Parser(toks, i + 2).expr()


# --- constants -----------------------------------------------------------
NS = 10 ** 9
CONST = {
    'true': True, 'false': False,
    'time.UTC': 0, 'time.Second': NS, 'time.Minute': 60 * NS, 'time.Hour': 3600 * NS,
    'tpdu.MT': 0, 'tpdu.MO': 1, 'tpdu.MtDeliver': 0, 'tpdu.MtSubmit': 1, 'tpdu.MtCommand': 2,
    'tpdu.SmsDeliver': 0, 'tpdu.SmsDeliverReport': 1, 'tpdu.SmsSubmitReport': 2,
    'tpdu.SmsSubmit': 3, 'tpdu.SmsStatusReport': 4, 'tpdu.SmsCommand': 5,
    'tpdu.Alpha7Bit': 0, 'tpdu.Alpha8Bit': 1, 'tpdu.AlphaUCS2': 2, 'tpdu.AlphaReserved': 3,
    'tpdu.MClass0': 0, 'tpdu.MClass1': 1, 'tpdu.MClass2': 2, 'tpdu.MClass3': 3, 'tpdu.MClassUnknown': 4,
    'tpdu.Dcs8BitData': 4, 'tpdu.DcsUCS2Data': 8, 'tpdu.Dcs7BitData': 0,
    'tpdu.PiPID': 1, 'tpdu.PiDCS': 2, 'tpdu.PiUDL': 4, 'tpdu.FoUDHI': 64,
    'tpdu.VpfNotPresent': 0, 'tpdu.VpfEnhanced': 1, 'tpdu.VpfRelative': 2, 'tpdu.VpfAbsolute': 3,
    'tpdu.EvpfNotPresent': 0, 'tpdu.EvpfRelative': 1, 'tpdu.EvpfRelativeSeconds': 2,
    'tpdu.EvpfRelativeHHMMSS': 3,
    'tz1': 3600, 'tz8': 28800,
}
for i, m in enumerate('January February March April May June July August September October November December'.split()):
    CONST['time.' + m] = i + 1
for i, m in enumerate('Default Turkish Spanish Portuguese Bengali Gujarati Hindi Kannada Malayalam Oriya Punjabi Tamil Telugu Urdu'.split()):
    CONST['charset.' + m] = i
BITS = {}


def const(e):
    if isinstance(e, bool) or isinstance(e, int):
        return e
    if isinstance(e, tuple):
        op, a, b = e[0], const(e[1]), const(e[2])
        return {'+': lambda: a + b, '-': lambda: a - b, '*': lambda: a * b, '|': lambda: a | b,
                '&': lambda: a & b, '&^': lambda: a & ~b, '<<': lambda: a << b}[op]()
    if isinstance(e, Name):
        for k in (e, 'tpdu.' + e):
            if k in CONST:
                return CONST[k]
    if isinstance(e, Call):
        f = e.fun
        if f == 'time.FixedZone':
            return const(e.args[1])
        if f in ('byte', 'uint8', 'int', 'rune', 'time.Duration') or f.startswith('tpdu.') and len(e.args) == 1:
            return const(e.args[0])
    raise ValueError('constant %r' % (e,))


def z(e):
    n = const(e)
    return '(%d)' % n if n < 0 else '%d' % n


def b(e):
    return 'true' if const(e) else 'false'


VARS = {}


def octets(e):
    """The bytes of a []byte or string expression."""
    if isinstance(e, Name):
        if e == 'nil':
            return b''
        return octets(VARS[e])
    if isinstance(e, Str):
        return bytes(e)
    if isinstance(e, Call):
        if e.fun == 'make':
            return bytes(const(e.args[1]))
        return octets(e.args[0])
    if isinstance(e, Lit):
        return bytes(const(x) for x in e.elems)
    raise ValueError('bytes %r' % (e,))


def lst(xs):
    return '[' + '; '.join(xs) + ']'


def by(e):
    return lst([str(x) for x in octets(e)])


def runes(e):
    return lst([str(ord(c)) for c in octets(e).decode()])


def nil(e):
    return isinstance(e, Name) and e == 'nil'


# --- errors --------------------------------------------------------------
ERRS = {'tpdu.ErrInvalid': 'ErrInvalid', 'tpdu.ErrUnderflow': 'ErrUnderflow',
        'tpdu.ErrOverlength': 'ErrOverlength', 'tpdu.ErrMissing': 'ErrMissing',
        'tpdu.ErrNonZero': 'ErrNonZero', 'tpdu.ErrOddUCS2Length': 'ErrOddUCS2Length',
        'semioctet.ErrMissingFill': 'SemiMissingFill', 'ucs2.ErrInvalidLength': 'Ucs2InvalidLength',
        'sms.ErrClosed': 'ErrClosed', 'sms.ErrDcsConflict': 'ErrDcsConflict',
        'sms.ErrDuplicateSegment': 'ErrDuplicateSegment',
        'sms.ErrReassemblyInconsistency': 'ErrReassemblyInconsistency'}
ERRF = {'bcd.ErrInvalidOctet': 'BcdInvalidOctet', 'bcd.ErrInvalidInteger': 'BcdInvalidInteger',
        'semioctet.ErrInvalidDigit': 'SemiInvalidDigit', 'gsm7.ErrInvalidSeptet': 'Gsm7InvalidSeptet',
        'gsm7.ErrInvalidUTF8': 'Gsm7InvalidUTF8', 'tpdu.ErrUnsupportedSmsType': 'ErrUnsupportedSmsType',
        'hex.InvalidByteError': 'HexInvalidByte'}


def err(e):
    if isinstance(e, Name):
        return ERRS[e if '.' in e else 'tpdu.' + e]
    if isinstance(e, Lit) and e.typ == 'tpdu.DecodeError':
        k = e.keys
        return '(DecodeErr "%s" %s %s)' % (k['Field'].decode(), z(k['Offset']), err(k['Err']))
    f = e.fun if '.' in e.fun else 'tpdu.' + e.fun
    if f == 'tpdu.NewDecodeError':
        return '(DecodeErr "%s" %s %s)' % (e.args[0].decode(), z(e.args[1]), err(e.args[2]))
    if f == 'tpdu.EncodeError':
        return '(EncodeErr "%s" %s)' % (e.args[0].decode(), err(e.args[1]))
    if f == 'ucs2.ErrDanglingSurrogate':
        return '(Ucs2DanglingSurrogate %s)' % by(e.args[0])
    return '(%s %s)' % (ERRF[f], z(e.args[0]))


def res(out, e):
    return 'Ok (%s)' % out if nil(e) else 'Err ' + err(e)


# --- structures ----------------------------------------------------------
def addr(e):
    if e is None:
        return 'zero_address'
    if e.typ == 'pdumode.SMSCAddress':
        return addr(e.elems[0] if e.elems else None)
    k = e.keys
    return 'ad %s %s' % (z(k.get('TOA', 0)), by(k.get('Addr', Str(b''))))


def gotime(e):
    if isinstance(e, Lit):
        e = e.keys.get('Time')
    if e is None:
        return 'zero_time'
    a = [z(x) for x in e.args]
    assert a[6] == '0'
    return 'go_date %s %s' % (' '.join(a[:6]), a[7])


def vp(e):
    k = e.keys
    return ('{| vp_format := %s; vp_time := %s; vp_duration := %s; vp_efi := %s |}'
            % (z(k.get('Format', 0)), gotime(k.get('Time')), z(k.get('Duration', 0)), z(k.get('EFI', 0))))


def ie(e):
    k = e.keys
    return 'el %s %s' % (z(k['ID']), by(k['Data']))


def ielist(e):
    if nil(e):
        return '[]'
    if isinstance(e, Call):
        return ielist(e.args[0])
    return lst([ie(x) for x in e.elems])


def udh(e):
    return 'None' if nil(e) else 'Some ' + ielist(e)


FIELDS = [('Direction', 'set_Direction', z), ('FirstOctet', 'set_FO', z), ('OA', 'set_OA', addr),
          ('FCS', 'set_FCS', z), ('MR', 'set_MR', z), ('CT', 'set_CT', z), ('MN', 'set_MN', z),
          ('DA', 'set_DA', addr), ('RA', 'set_RA', addr), ('PI', 'set_PI', z),
          ('SCTS', 'set_SCTS', gotime), ('DT', 'set_DT', gotime), ('ST', 'set_ST', z),
          ('PID', 'set_PIDf', z), ('DCS', 'set_DCSf', z), ('VP', 'set_VPf', vp),
          ('UDH', 'set_UDHf', udh), ('UD', 'set_UDf', by)]


def tpdu(e):
    t = 'zero_tpdu'
    left = set(e.keys)
    for f, s, g in FIELDS:
        if f in e.keys:
            t = '(%s %s (%s))' % (s, t, g(e.keys[f]))
            left.discard(f)
    assert not left, left
    return t


def tpdus(e):
    return '[]' if nil(e) else lst([tpdu(x) for x in e.elems])


def charset_opts(e):
    if nil(e):
        return '[]'
    return lst([charset_opt(x) for x in e.elems])


def charset_opt(x):
    if isinstance(x, Name):
        if x.split('.')[1] == 'WithDefaultCharset':
            return 'OptCharset []'
        assert x.split('.')[1] == 'WithAllCharsets'
        return 'OptAllCharsets'
    c = {'WithCharset': 'OptCharset', 'WithLockingCharset': 'OptLocking',
         'WithShiftCharset': 'OptShift'}[x.fun.split('.')[1]]
    return '%s %s' % (c, lst([z(a) for a in x.args]))


def encoder_opts(e):
    if nil(e):
        return '[]'
    out = []
    for x in e.elems:
        n = x if isinstance(x, Name) else x.fun
        n = n.split('.')[1]
        if n in ('WithAllCharsets', 'WithCharset', 'WithLockingCharset', 'WithShiftCharset'):
            out.append('EoCharset (%s)' % charset_opt(x))
        elif n in ('AsSubmit', 'AsDeliver', 'As8Bit', 'AsUCS2'):
            out.append(n)
        elif n in ('To', 'From'):
            out.append('%s %s' % (n, by(x.args[0])))
        elif n == 'WithTemplateOption':
            out.append('EoTemplateOption (%s)' % tpdu_opt(x.args[0]))
        elif n == 'WithTemplate':
            out.append('EoTemplate %s' % tpdu(x.args[0]))
        else:
            raise ValueError('option %r' % x)
    return lst(out)


def tpdu_opt(x):
    if isinstance(x, Name) and x.startswith('tpdu.Dcs'):
        return 'OptDCS %s' % z(x)
    if isinstance(x, Name) and x.startswith('tpdu.Sms'):
        return 'OptSmsType %s' % z(x)
    if isinstance(x, Call) and x.fun == 'tpdu.DCS':
        return 'OptDCS %s' % z(x.args[0])
    if isinstance(x, Call) and x.fun == 'tpdu.WithUDH':
        return 'OptUDH (%s)' % udh(x.args[0])
    raise ValueError('tpdu option %r' % (x,))


def triple(segs, seq, ref, ok):
    return 'Some (%s, %s, %s)' % (z(segs), z(seq), z(ref)) if const(ok) else 'None'


# --- the tables ----------------------------------------------------------
out, count = [], {}


def emit(key, path, row, stmt):
    n = count.get(key, 0) + 1
    count[key] = n
    name = row.elems[0].decode() if isinstance(row.elems[0], Str) else ''
    name = name.replace('(*', '( *').replace('"', "'")
    out.append('(** %s:%d%s *)' % (path, row.line, ' ' + name if name else ''))
    out.append('Example vec_%s_%d : %s.\nProof. vm_compute. reflexivity. Qed.' % (key, n, stmt))


def table(key, path, func, stmt, var='patterns', nth=0):
    t = find(path, func, var, nth)
    for row in t.elems:
        s = stmt(*row.elems)
        if s:
            emit(key, path, row, s)


E = 'encoding/'
table('bcd_decode', E + 'bcd/bcd_test.go', 'TestDecode',
      lambda n, i, o, e: 'bcd_decode %s = %s' % (z(i), res(z(o), e)))
table('bcd_decode_signed', E + 'bcd/bcd_test.go', 'TestDecodeSigned',
      lambda n, i, o, e: 'bcd_decode_signed %s = %s' % (z(i), res(z(o), e)))
table('bcd_encode', E + 'bcd/bcd_test.go', 'TestEncode',
      lambda n, i, o, e: 'bcd_encode %s = %s' % (z(i), res(z(o), e)))
table('bcd_encode_signed', E + 'bcd/bcd_test.go', 'TestEncodeSigned',
      lambda n, i, o, e: 'bcd_encode_signed %s = %s' % (z(i), res(z(o), e)))

table('semi_decode', E + 'semioctet/semioctet_test.go', 'TestDecode',
      lambda n, d, s, o, c, e: 'semi_decode %d %s = %s' % (len(octets(d)), by(s), res('%s, %s' % (by(o), z(c)), e)))
table('semi_encode', E + 'semioctet/semioctet_test.go', 'TestEncode',
      lambda n, i, o, e: 'semi_encode %s = %s' % (by(i), res(by(o), e)))

SB = E + 'gsm7/7bit_test.go'
for v, u in (('testPatterns', ''), ('ussdTestPatterns', '_ussd')):
    table('unpack7bit' + u, SB, None, lambda n, f, p, x: 'unpack7bit%s %s %s = %s' % (u, by(p), z(f), by(x)), v)
    table('pack7bit' + u, SB, None, lambda n, f, p, x: 'pack7bit%s %s %s = %s' % (u, by(x), z(f), by(p)), v)

G = E + 'gsm7/gsm7_test.go'
SETM = '[(109, 77); (101, 69); (115, 83); (97, 65); (103, 71)]'
EXTM = '[(101, 69); (120, 88); (116, 84)]'


def dec(key, func, d):
    table(key, G, func, lambda n, i, o, e: 'gsm7_decode (%s) %s = %s' % (d, by(i), res(by(o), e)), 'p')


def enc(key, func, d):
    table(key, G, func, lambda n, i, o, e: 'gsm7_encode (%s) %s = %s' % (d, by(i), res(by(o), e)), 'p')


dec('gsm7_decode', 'TestDecode', 'gsm7_new_decoder None None false')
dec('gsm7_decode_set', 'TestDecoderWithCharset',
    'with_charset (gsm7_new_decoder None None false) %s' % SETM)
dec('gsm7_decode_ext', 'TestDecoderWithExtCharset',
    'with_ext_charset (gsm7_new_decoder None None false) [(64, 81)]')
dec('gsm7_decode_strict', 'TestDecoderStrict',
    'with_ext_charset (with_charset (strict (gsm7_new_decoder None None false)) %s) %s' % (SETM, EXTM))
enc('gsm7_encode', 'TestEncode', 'gsm7_new_encoder None None')
enc('gsm7_encode_set', 'TestEncoderWithCharset',
    'e_with_charset (gsm7_new_encoder None None) [(350, 64)]')
enc('gsm7_encode_ext', 'TestEncoderWithExtCharset',
    'e_with_ext_charset (gsm7_new_encoder None None) [(350, 64)]')

U = E + 'ucs2/ucs2_test.go'
table('ucs2_decode', U, 'TestDecode',
      lambda n, i, o, e: 'ucs2_decode %s = {| u2_runes := %s; u2_err := %s |}' % (by(i), runes(o), 'None' if nil(e) else 'Some ' + err(e)))
table('ucs2_encode', U, 'TestEncode', lambda n, i, o: 'ucs2_encode %s = %s' % (runes(i), by(o)))

A = E + 'tpdu/address_test.go'
table('addr_marshal', A, 'TestAddressMarshalBinary',
      lambda n, i, o, e: 'addr_marshal (%s) = %s' % (addr(i), res(by(o), e)))
table('addr_unmarshal', A, 'TestAddressUnmarshalBinary',
      lambda n, i, o, c, e: 'addr_unmarshal %s = %s' % (by(i), res('%s, %s' % (addr(o), z(c)), e)))

T = E + 'tpdu/timestamp_test.go'
table('ts_marshal', T, 'TestMarhalBinary',
      lambda n, i, o, e: 'ts_marshal (%s) = %s' % (gotime(i), res(by(o), e)))
table('ts_unmarshal', T, 'TestUnmarhalBinary',
      lambda n, i, o, e: 'ts_unmarshal %s = %s' % (by(i), res(gotime(o), e)))

V = E + 'tpdu/validityperiod_test.go'
table('vp_marshal', V, 'TestVPMarshalBinary',
      lambda n, i, o, e: 'vp_marshal (%s) = %s' % (vp(i), res(by(o), e)))
table('vp_unmarshal', V, 'TestVPUnmarshalBinary',
      lambda n, i, f, c, o, e: 'vp_unmarshal vp_zero %s %s = %s' % (by(i), z(f), res('%s, %s' % (vp(o), z(c)), e)))

D = E + 'tpdu/userdata_test.go'
table('udh_marshal', D, 'TestUserDataHeaderMarshalBinary',
      lambda n, i, o, e: 'udh_marshal %s = %s' % (ielist(i), by(o)))
table('udh_unmarshal', D, 'TestUserDataHeaderUnmarshalBinary',
      lambda n, i, o, c, e: 'udh_unmarshal %s = %s' % (by(i), res('%s, %s' % (udh(o), z(c)), e)))
for f, g in (('TestConcatInfo', 'concat_info'), ('TestConcatInfo8', 'concat_info8'),
             ('TestConcatInfo16', 'concat_info16')):
    table(g, D, f, lambda n, u, r, s, q, ok: '%s %s = %s' % (g, ielist(u), triple(s, q, r, ok)))
table('decode_user_data', D, 'TestDecodeUserData',
      lambda n, ud, u, a, o, m, e: 'decode_user_data %s %s %s %s = {| dd_text := %s; dd_err := %s |}'
      % (by(ud), ielist(u), z(a), charset_opts(o), by(m), 'None' if nil(e) else 'Some ' + err(e)))
table('decode_user_data_all', D, 'TestDecodeUserDataAllCharsets',
      lambda n, ud, u, m, o, e: 'decode_user_data %s %s 0 %s = {| dd_text := %s; dd_err := %s |}'
      % (by(ud), ielist(u), charset_opts(o), by(m), 'None' if nil(e) else 'Some ' + err(e)))
table('encode_user_data', D, 'TestEncodeUserData',
      lambda n, ud, u, a, o, m: 'encode_user_data %s %s = (%s, %s, %s)'
      % (by(m), charset_opts(o), by(ud), udh(u), z(a)))

I = E + 'tpdu/tpdu_internal_test.go'
table('decode_ud', I, 'TestDecodeUserData',
      lambda n, t, s, ud, u, e: 'bind (decode_ud %s %s) (fun t => Ok (UDH t, UD t)) = %s'
      % (tpdu(t), by(s), res('%s, %s' % (udh(u), by(ud)), e)))
table('encode_ud', I, 'TestEncodeUserData',
      lambda n, t, o, e: 'encode_ud %s = %s' % (tpdu(t), res(by(o), e)))


def chunks(o):
    return '[]' if nil(o) else lst([by(x) for x in o.elems])


table('chunk', I, 'TestChunk', lambda n, m, a, s, o: 'chunk %s %s %s = Ok %s' % (by(m), z(a), z(s), chunks(o)))
for f, g in (('TestChunk7Bit', 'chunk7'), ('TestChunk8Bit', 'chunk8'), ('TestChunkUCS2', 'chunkU')):
    table(g, I, f, lambda n, m, s, o: '%s %s %s = Ok %s' % (g, by(m), z(s), chunks(o)))

P = E + 'tpdu/tpdu_test.go'
table('alphabet', P, 'TestAlphabet', lambda i, o, e: 'dcs_alphabet %s = %s' % (z(i), res(z(o), e)))
table('concat', P, 'TestConcat',
      lambda n, u, r, s, q, ok: 'bind (tpdu_new [OptUDH (%s)]) (fun t => Ok (tpdu_concat_info t)) = Ok (%s)'
      % (udh(u), triple(s, q, r, ok)))
table('tpdu_marshal', P, 'TestMarshalBinary',
      lambda n, i, o, e: 'tpdu_marshal %s = %s' % (tpdu(i), res(by(o), e)))
table('single_segment', P, 'TestIsSingleSegment',
      lambda n, i, o: 'is_single_segment %s = %s' % (tpdu(i), b(o)))


def seg_cfg(e):
    w, c, m = 'false', 'None', 'None'
    for x in ([] if nil(e) else e.elems):
        if isinstance(x, Name):
            w = 'true'
        elif x.fun == 'tpdu.WithMR':
            m = 'Some (counter_nth %s)' % z(x.args[0].elems[0])
        else:
            c = 'Some (counter_nth %s)' % z(x.args[0].elems[0])
    return '{| sc_wide := %s; sc_cr := %s; sc_mr := %s |}' % (w, c, m)


table('segment', P, 'TestSegment',
      lambda n, t, m, o, r: 'segment %s %s %s = Ok %s' % (tpdu(t), by(m), seg_cfg(o), tpdus(r)))
table('block_size', P, 'TestUDBlockSize', lambda n, t, o: 'ud_block_size %s = %s' % (tpdu(t), z(o)))
table('tpdu_unmarshal', P, 'TestUnmarshalBinary',
      lambda n, i, d, o, e: 'tpdu_unmarshal (set_Direction zero_tpdu %s) %s = %s' % (z(d), by(i), res(tpdu(o), e)))
table('tpdu_left', P, 'TestUnmarshalBinary',
      lambda n, i, d, o, e: 'unmarshal_left (set_Direction zero_tpdu %s) %s = (%s, %s)' % (z(d), by(i), tpdu(o), res('tt', e)))

S = E + 'pdumode/smscaddress_test.go'
table('smsc_marshal', S, 'TestSMSCAddressMarshalBinary',
      lambda n, i, o, e: 'smsc_marshal (%s) = %s' % (addr(i), res(by(o), e)))
table('smsc_unmarshal', S, 'TestSMSCAddressUnmarshalBinary',
      lambda n, i, o, c, e: 'smsc_unmarshal zero_address %s = %s' % (by(i), res('%s, %s' % (addr(o), z(c)), e)))
M = E + 'pdumode/pdu_test.go'


def pdu(a, t):
    return '{| p_smsc := %s; p_tpdu := %s |}' % (addr(a), by(t))


def unhex(s):
    return lst([str(x) for x in bytes.fromhex(octets(s).decode())])


table('pdu_unmarshal', M, 'TestUnmarshalBinary',
      lambda n, p, a, t, e: 'pdu_unmarshal %s = %s' % (unhex(p), 'Err ' + err(e) if not nil(e) else res(pdu(a, t), e)),
      'decodePatterns')
table('pdu_unmarshal_hex', M, 'TestUnmarshalHexString',
      lambda n, p, a, t, e: 'pdu_unmarshal_hex %s = %s' % (by(p), 'Err ' + err(e) if not nil(e) else res(pdu(a, t), e)),
      'decodePatterns')
table('pdu_marshal', M, 'TestMarshalBinary',
      lambda n, p, a, t, e: 'pdu_marshal %s = %s' % (pdu(a, t), res(unhex(p), e)))
table('pdu_marshal_hex', M, 'TestMarshalHexString',
      lambda n, p, a, t, e: 'pdu_marshal_hex %s = %s' % (pdu(a, t), res(by(p), e)))

N = 'encode_test.go'
VARS['twoSegmentMsg'] = find(N, None, 'twoSegmentMsg')
table('encode', N, None,
      lambda n, m, o, r, e: 'encode %s %s = %s' % (by(m), encoder_opts(o), res(tpdus(r), e)))
X = 'sms_test.go'
table('decode', X, 'TestDecode',
      lambda n, i, o, r, e: 'decode (map Some %s) %s = %s' % (tpdus(i), charset_opts(o), res(by(r), e)))
table('complete', X, 'TestIsCompleteMessage',
      lambda n, i, o: 'is_complete_message %s = %s' % (tpdus(i), b(o)))
table('unmarshal', X, 'TestUnmarshal',
      lambda n, i, o, r, e: 'unmarshal %s %s = %s'
      % (by(i), 'false' if nil(o) else 'true', 'Err ' + err(e) if not nil(e) else res(tpdu(r), e)))

# The rows of the collector's table are steps of one history.
C = 'collect_test.go'
steps, outs = [], []
for nth in (0, 1):
    t = find(C, 'TestCollectorCollect', 'patterns', nth)
    if nth:
        steps.append('None')
        outs.append('None')
    for row in t.elems:
        n, i, o, e = row.elems
        steps.append('Some %s' % tpdu(i))
        outs.append('Some (%s, %s)' % ('None' if nil(o) else 'Some ' + tpdus(o), 'None' if nil(e) else 'Some ' + err(e)))
emit('collect', C, Lit('', [Str(b'the whole table, Close between its two parts')], {}, 37),
     'collect_all new_collector 0 %s = %s' % (lst(steps), lst(outs)))

K = 'cmd/smscounter/smscounter_test.go'
table('new_count', K, 'TestNewCount',
      lambda n, m, nli, o, e: 'new_count %s %s = Ok {| k_encoding := "%s"; k_messages := %s; k_tlen := %s; k_llen := %s; k_pdulen := %s; k_remaining := %s |}'
      % ((by(m), z(nli), o.elems[0].decode()) + tuple(z(x) for x in o.elems[1:])))
table('smsdecode', 'cmd/smsdecode/smsdecode_test.go', 'TestDecode',
      lambda n, p, pm, mo, o, e: 'bind (smsdecode %s %s %s) (fun r => Ok (fst r)) = %s'
      % (by(p), b(pm), b(mo), 'Err ' + err(e) if not nil(e) else res(tpdu(o), e)))

HEAD = '''(** The tables of the project's own unit tests, as checks of the model.
    Written by tools/vectors.py from the *_test.go files of /repo: each Example
    says that the model gives what the test expects of the code.  They are
    tests of the model, not proofs of properties. *)
From Verif Require Import GoBase Bcd Semioctet SevenBit Utf Ucs2 Charset Gsm7 Gsm7Options
  Dcs FirstOctet TpduError Address GoTime ValidityPeriod UserData Tpdu TpduLeft Segment Sms Collector
  PduMode Cmd.
Open Scope Z_scope.
Open Scope string_scope.
Import ListNotations.
Open Scope list_scope.

(** A tpdu.Address and a tpdu.InformationElement, as the tests write them. *)
Definition ad (toa : Z) (a : bytes) : address := {| a_toa := toa; a_addr := a |}.
Definition el (id : Z) (d : bytes) : ie := {| ie_id := id; ie_data := d |}.
'''
MID = open('/verif/tools/vectors_mid.txt').read()
open(OUT, 'w').write(HEAD + MID + '\n' + '\n'.join(out) + '\n')
print(sum(count.values()), 'vectors')
for k in count:
    print('  ', k, count[k])
