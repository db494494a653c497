#!/usr/bin/env python3
"""Translates assertions of the repository's unit tests into Coq boolean checks about the model.

Usage: python3 gen/conformance.py /repo out.v Module file_test.go ...
The Go test files are read as text. Only a small statement subset is understood (literals, calls of modelled functions,
field assignments, range loops over literal slices, testify assertions); anything else is skipped and reported."""
import sys, re

class Skip(Exception): pass

TOK = re.compile(r'''
 (?P<ws>[ \t\r]+) | (?P<com>//[^\n]*) | (?P<nl>\n) | (?P<raw>`[^`]*`) | (?P<str>"(?:[^"\\\n]|\\.)*") | (?P<chr>'(?:[^'\\\n]|\\.)+')
 | (?P<num>0x[0-9a-fA-F]+|\d+) | (?P<id>[A-Za-z_]\w*) | (?P<op>:=|==|!=|&&|\|\||\+\+|--|\+=|<=|>=|\.\.\.|[-+*/%&|^!<>=(){}\[\],;:.])''', re.X)
def lex(src):
    out = []; i = 0
    while i < len(src):
        m = TOK.match(src, i)
        if not m: raise SyntaxError(src[i:i+40])
        i = m.end(); k = m.lastgroup
        if k in ('ws', 'com'): continue
        if k == 'nl':
            if out and (out[-1][0] in ('id', 'num', 'str', 'raw', 'chr') or out[-1][1] in (')', ']', '}', '++', '--')): out.append(('op', ';'))
            continue
        out.append((k, m.group()))
    return out

def unq(t):
    if t[0] == '`': return t[1:-1].encode()
    b = b''; i = 1
    while i < len(t) - 1:
        c = t[i]
        if c != '\\': b += c.encode(); i += 1; continue
        e = t[i+1]
        if e == 'x': b += bytes([int(t[i+2:i+4], 16)]); i += 4
        elif e == 'u': b += chr(int(t[i+2:i+6], 16)).encode(); i += 6
        elif e == 'U': b += chr(int(t[i+2:i+10], 16)).encode(); i += 10
        else: b += {'n': b'\n', 't': b'\t', 'r': b'\r', '\\': b'\\', '"': b'"', "'": b"'", 'a': b'\a'}[e]; i += 2
    return b

def coqstr(b):
    if all(32 <= c < 127 for c in b): return '(bs "%s")' % b.decode().replace('"', '""')
    return '[' + '; '.join(map(str, b)) + ']'

# AST: tuples
class P:
    def __init__(s, toks): s.t = toks; s.i = 0
    def peek(s, k=0): return s.t[s.i+k] if s.i+k < len(s.t) else ('eof', '')
    def at(s, v): return s.peek()[1] == v and s.peek()[0] in ('op', 'id')
    def eat(s, v):
        if not s.at(v): raise SyntaxError('expected %s at %s' % (v, s.t[s.i:s.i+8]))
        s.i += 1
    def opt(s, v):
        if s.at(v): s.i += 1; return True
        return False
    def block(s):
        s.eat('{'); r = []
        while not s.at('}'):
            if s.opt(';'): continue
            r.append(s.stmt())
        s.eat('}'); return r
    def stmt(s):
        st = s.i
        try: return s.stmt1()
        except SyntaxError:
            s.i = st; s.skipstmt(); return ('bad', ' '.join(x[1] for x in s.t[st:s.i])[:80])
    def skipstmt(s):
        d = 0
        while s.i < len(s.t):
            v = s.peek()[1]
            if v in '({[' and s.peek()[0] == 'op': d += 1
            elif v in ')}]' and s.peek()[0] == 'op':
                if d == 0: return
                d -= 1
            elif v == ';' and d == 0: s.i += 1; return
            s.i += 1
    def stmt1(s):
        if s.at('for'):
            s.i += 1
            if not (s.peek()[0] == 'id'): raise SyntaxError('for')
            vs = [s.peek()[1]]; s.i += 1
            while s.opt(','): vs.append(s.peek()[1]); s.i += 1
            s.eat(':='); s.eat('range'); e = s.expr(); b = s.block(); s.opt(';')
            return ('for', vs, e, b)
        if s.at('{'):
            return ('blk', s.block())
        if s.at('if') or s.at('return') or s.at('func') or s.at('var') or s.at('type') or s.at('switch'): raise SyntaxError('stmt')
        es = [s.expr()]
        while s.opt(','): es.append(s.expr())
        if s.at(':=') or s.at('='):
            s.i += 1; rs = [s.expr()]
            while s.opt(','): rs.append(s.expr())
            s.endst(); return ('asg', es, rs)
        s.endst(); return ('expr', es[0])
    def endst(s):
        if s.at('}'): return
        s.eat(';')
    def expr(s):
        a = s.unary()
        while s.peek()[0] == 'op' and s.peek()[1] in ('+', '==', '!=', '&&', '||'):
            o = s.peek()[1]; s.i += 1; a = ('bin', o, a, s.unary())
        return a
    def unary(s):
        if s.opt('&'): return s.unary()
        if s.opt('-'): return ('neg', s.unary())
        if s.opt('!'): return ('not', s.unary())
        return s.postfix(s.primary())
    def primary(s):
        k, v = s.peek()
        if k in ('str', 'raw'): s.i += 1; return ('str', unq(v))
        if k == 'chr': s.i += 1; return ('chr', ord(unq(v).decode()))
        if k == 'num': s.i += 1; return ('num', int(v, 0))
        if v == '(' : s.i += 1; e = s.expr(); s.eat(')'); return e
        if v == '[':
            s.eat('['); s.eat(']')
            if s.opt('*'): pass
            if s.at('struct'):
                s.i += 1; s.eat('{'); fs = []
                while not s.at('}'):
                    if s.opt(';'): continue
                    names = [s.peek()[1]]; s.i += 1
                    while s.opt(','): names.append(s.peek()[1]); s.i += 1
                    s.skiptype(); fs += names
                    if not s.at('}'): s.eat(';')
                s.eat('}')
                return ('slice', ('struct', fs), s.complit())
            t = s.peek()[1]; s.i += 1
            return ('slice', t, s.complit())
        if v == 'map': raise SyntaxError('map')
        if v == 'func': raise SyntaxError('func')
        if k == 'id':
            s.i += 1
            if s.at('{') and v[0].isupper(): return ('lit', v, s.complit())
            return ('id', v)
        raise SyntaxError('primary %s' % v)
    def skiptype(s):
        while not (s.at(';') or s.at('}')): s.i += 1
    def complit(s):
        s.eat('{'); r = []
        while not s.at('}'):
            if s.opt(';'): continue
            if s.at('{'): e = ('lit', None, s.complit())
            else: e = s.expr()
            if s.opt(':'):
                e = ('kv', e, ('lit', None, s.complit()) if s.at('{') else s.expr())
            r.append(e)
            if not s.opt(','):
                s.opt(';')
        s.eat('}'); return r
    def postfix(s, a):
        while True:
            if s.opt('.'):
                n = s.peek()[1]; s.i += 1; a = ('sel', a, n)
                if s.at('{') and n[0].isupper() and a[1] == ('id', 'metadata'): a = ('lit', n, s.complit())
            elif s.opt('('):
                args = []
                while not s.at(')'):
                    if s.opt(';'): continue
                    args.append(s.expr())
                    if not s.opt(','): break
                s.opt(';'); s.eat(')'); a = ('call', a, args)
            elif s.at('['):
                s.eat('['); e = s.expr(); s.eat(']'); a = ('idx', a, e)
            else: return a

# Typed Coq values: (type, term) where term : M T
S, I, B, PH, TY, FM, MT, VR, ER, OP, NAT, TL = 'str int bool phone ptype pformat mtype vresult err optphone nat tlist'.split()
EQ = {S: 'beq', I: 'Z.eqb', B: 'Bool.eqb', PH: 'phone_full_eqb', TY: 'ptype_eqb', MT: 'mtype_eqb', VR: 'vresult_eqb', NAT: 'Nat.eqb',
      'cost': 'cost_eqb', 'src': 'ccsource_eqb'}
FUNCS = {  # name: (coq head, arg types, result type, monadic)
 'Format': ('Format C', [PH, FM], S, 1), 'Parse': ('Parse C', [S, S], 'parse', 1), 'ParseAndKeepRawInput': ('ParseAndKeepRawInput C', [S, S], 'parse', 1),
 'FormatOutOfCountryCallingNumber': ('FormatOutOfCountryCallingNumber C', [PH, S], S, 1),
 'FormatOutOfCountryKeepingAlphaChars': ('FormatOutOfCountryKeepingAlphaChars C', [PH, S], S, 1),
 'FormatNationalNumberWithCarrierCode': ('FormatNationalNumberWithCarrierCode C', [PH, S], S, 1),
 'FormatNationalNumberWithPreferredCarrierCode': ('FormatNationalNumberWithPreferredCarrierCode C', [PH, S], S, 1),
 'FormatNumberForMobileDialing': ('FormatNumberForMobileDialing C', [PH, S, B], S, 1),
 'FormatInOriginalFormat': ('FormatInOriginalFormat C', [PH, S], S, 1),
 'FormatByPattern': ('FormatByPattern C', [PH, FM, 'nfl'], S, 1),
 'GetNationalSignificantNumber': ('GetNationalSignificantNumber', [PH], S, 0),
 'GetLengthOfGeographicalAreaCode': ('GetLengthOfGeographicalAreaCode C', [PH], NAT, 1),
 'GetLengthOfNationalDestinationCode': ('GetLengthOfNationalDestinationCode C', [PH], NAT, 1),
 'IsNumberGeographical': ('IsNumberGeographical C', [PH], B, 1),
 'GetCountryMobileToken': ('GetCountryMobileToken', [I], S, 0),
 'GetCountryCodeForRegion': ('GetCountryCodeForRegion C', [S], I, 0),
 'GetRegionCodeForCountryCode': ('GetRegionCodeForCountryCode C', [I], S, 0),
 'GetRegionCodeForNumber': ('GetRegionCodeForNumber C', [PH], S, 1),
 'GetNddPrefixForRegion': ('GetNddPrefixForRegion C', [S, B], S, 0),
 'IsNANPACountry': ('IsNANPACountry C', [S], B, 0),
 'IsValidNumber': ('IsValidNumber C', [PH], B, 1), 'IsValidNumberForRegion': ('IsValidNumberForRegion C', [PH, S], B, 1),
 'IsPossibleNumber': ('IsPossibleNumber C', [PH], B, 1), 'IsPossibleNumberForType': ('IsPossibleNumberForType C', [PH, TY], B, 1),
 'IsPossibleNumberWithReason': ('IsPossibleNumberWithReason C', [PH], VR, 1),
 'IsPossibleNumberForTypeWithReason': ('IsPossibleNumberForTypeWithReason C', [PH, TY], VR, 1),
 'IsPossibleNumberFromRegion': ('IsPossibleNumberFromRegion C', [S, S], B, 1),
 'GetNumberType': ('GetNumberType C', [PH], TY, 1),
 'IsNumberMatch': ('IsNumberMatch C', [S, S], MT, 1), 'IsNumberMatchWithOneNumber': ('IsNumberMatchWithOneNumber C', [PH, S], MT, 1),
 'IsNumberMatchWithNumbers': ('IsNumberMatchWithNumbers', [PH, PH], MT, 0),
 'CanBeInternationallyDialled': ('CanBeInternationallyDialled C', [PH], B, 1), 'IsAlphaNumber': ('IsAlphaNumber', [S], B, 0),
 'IsMobileNumberPortableRegion': ('IsMobileNumberPortableRegion C', [S], B, 0),
 'GetExampleNumber': ('GetExampleNumber C', [S], OP, 1), 'GetExampleNumberForTypeInRegion': ('GetExampleNumberForTypeInRegion C', [S, TY], OP, 1),
 'GetInvalidExampleNumber': ('GetInvalidExampleNumber C', [S], OP, 1), 'GetExampleNumberForNonGeoEntity': ('GetExampleNumberForNonGeoEntity C', [I], OP, 1),
 'ConvertAlphaCharactersInNumber': ('ConvertAlphaCharactersInNumber', [S], S, 0), 'normalize': ('normalize', [S], S, 0),
 'NormalizeDigitsOnly': ('NormalizeDigitsOnly', [S], S, 0), 'NormalizeDiallableCharsOnly': ('NormalizeDiallableCharsOnly', [S], S, 0),
 'extractPossibleNumber': ('extractPossibleNumber', [S], S, 0), 'isViablePhoneNumber': ('isViablePhoneNumber', [S], B, 0),
 'formattingRuleHasFirstGroupOnly': ('formattingRuleHasFirstGroupOnly', [S], B, 0),
 'GetSupportedTypesForRegion': ('GetSupportedTypesForRegion C', [S], TL, 0), 'GetSupportedTypesForNonGeoEntity': ('GetSupportedTypesForNonGeoEntity C', [I], TL, 0),
 'IsPossibleShortNumber': ('IsPossibleShortNumber C SC', [PH], B, 1), 'IsPossibleShortNumberForRegion': ('IsPossibleShortNumberForRegion C SC', [PH, S], B, 1),
 'IsValidShortNumber': ('IsValidShortNumber C SC', [PH], B, 1), 'IsValidShortNumberForRegion': ('IsValidShortNumberForRegion C SC', [PH, S], B, 1),
 'GetExpectedCost': ('GetExpectedCost C SC', [PH], 'cost', 1), 'GetExpectedCostForRegion': ('GetExpectedCostForRegion C SC', [PH, S], 'cost', 1),
 'ConnectsToEmergencyNumber': ('ConnectsToEmergencyNumber SC', [S, S], B, 1), 'IsEmergencyNumber': ('IsEmergencyNumber SC', [S, S], B, 1),
 'getExampleShortNumber': ('getExampleShortNumber SC', [S], S, 0), 'getExampleShortNumberForCost': ('getExampleShortNumberForCost SC', [S, 'cost'], S, 0),
 'IsCarrierSpecific': ('IsCarrierSpecific C SC', [PH], B, 1), 'IsCarrierSpecificForRegion': ('IsCarrierSpecificForRegion C SC', [PH, S], B, 1),
 'IsSmsServiceForRegion': ('IsSmsServiceForRegion C SC', [PH, S], B, 1), 'IsSMSServiceForRegion': ('IsSmsServiceForRegion C SC', [PH, S], B, 1),
}
ENUM = {}
for n in 'FIXED_LINE MOBILE FIXED_LINE_OR_MOBILE TOLL_FREE PREMIUM_RATE SHARED_COST VOIP PERSONAL_NUMBER PAGER UAN VOICEMAIL UNKNOWN'.split(): ENUM[n] = (TY, n)
for n in 'E164 INTERNATIONAL NATIONAL RFC3966'.split(): ENUM[n] = (FM, n)
for n in 'NOT_A_NUMBER NO_MATCH SHORT_NSN_MATCH NSN_MATCH EXACT_MATCH'.split(): ENUM[n] = (MT, n)
for n in 'IS_POSSIBLE IS_POSSIBLE_LOCAL_ONLY INVALID_COUNTRY_CODE TOO_SHORT INVALID_LENGTH TOO_LONG'.split(): ENUM[n] = (VR, n)
for n in 'ErrInvalidCountryCode ErrNotANumber ErrTooShortAfterIDD ErrTooShortNSN ErrNumTooLong'.split(): ENUM[n] = (ER, n)
ENUM['TOLL_FREE_COST'] = ('cost', 'TOLL_FREE_COST'); ENUM['STANDARD_RATE_COST'] = ('cost', 'STANDARD_RATE_COST')
ENUM['PREMIUM_RATE_COST'] = ('cost', 'PREMIUM_RATE_COST'); ENUM['UNKNOWN_COST'] = ('cost', 'UNKNOWN_COST')
for n in 'TollFreeCost StandardRateCost PremiumRateCost UnknownCost'.split(): ENUM[n] = ('cost', n)
SRC = {'PhoneNumber_FROM_NUMBER_WITH_PLUS_SIGN': 'FROM_NUMBER_WITH_PLUS_SIGN', 'PhoneNumber_FROM_NUMBER_WITH_IDD': 'FROM_NUMBER_WITH_IDD',
 'PhoneNumber_FROM_NUMBER_WITHOUT_PLUS_SIGN': 'FROM_NUMBER_WITHOUT_PLUS_SIGN', 'PhoneNumber_FROM_DEFAULT_COUNTRY': 'FROM_DEFAULT_COUNTRY', 'PhoneNumber_UNSPECIFIED': 'UNSPECIFIED'}
FIELD = {'CountryCode': ('set_cc', I, 'get_cc'), 'NationalNumber': ('set_nn', 'N', 'get_nn'), 'Extension': ('set_ext', S, 'get_ext'), 'ItalianLeadingZero': ('set_ilz', B, 'get_ilz'),
 'NumberOfLeadingZeros': ('set_nlz', I, 'get_nlz'), 'RawInput': ('set_raw', S, 'get_raw'), 'CountryCodeSource': ('set_src', 'src', 'get_src'), 'PreferredDomesticCarrierCode': ('set_carrier', S, 'get_carrier')}
NFIELD = {'Pattern': 0, 'Format': 1, 'LeadingDigitsPattern': 2, 'NationalPrefixFormattingRule': 3, 'NationalPrefixOptionalWhenFormatting': 4, 'DomesticCarrierCodeFormattingRule': 5}

class T:
    def __init__(s, fns): s.fns = fns; s.env = {}; s.checks = []; s.skips = []; s.cont = 'shipped'; s.fresh = 0
    def ret(s, ty, t): return (ty, '(Ret %s)' % t)
    def ev(s, e, want=None):
        k = e[0]
        if k == 'str': return s.ret(S, coqstr(e[1]))
        if k == 'chr': return ('chr', e[1])
        if k == 'num':
            if want == 'N': return s.ret('N', '%d%%N' % e[1])
            if want == NAT: return s.ret(NAT, '%d%%nat' % e[1])
            return s.ret(I, '(%d)%%Z' % e[1])
        if k == 'neg' and e[1][0] == 'num': return s.ret(I, '(-%d)%%Z' % e[1][1])
        if k == 'not':
            t = s.ev(e[1]);
            if t[0] != B: raise Skip('not')
            return (B, '(b <- %s ;; Ret (negb b))' % t[1])
        if k == 'bin' and e[1] == '+':
            a = s.ev(e[2]); b = s.ev(e[3])
            if a[0] == S == b[0]: return (S, '(a <- %s ;; b <- %s ;; Ret (a ++ b))' % (a[1], b[1]))
            raise Skip('+')
        if k == 'id':
            n = e[1]
            if n in ('true', 'false'): return s.ret(B, n)
            if n == 'nil': return ('nil', None)
            if n in s.env:
                if s.env[n] is None: raise Skip('var ' + n)
                return s.env[n]
            if n in ENUM: return s.ret(*ENUM[n])
            if n in SRC: return s.ret('src', SRC[n])
            raise Skip('id ' + n)
        if k == 'sel':
            if e[1] == ('id', 'regionCode'): return s.ret(S, coqstr(({'UN001': '001'}.get(e[2], e[2])).encode()))
            if e[1][0] == 'id' and e[1][1] in s.env:
                v = s.env[e[1][1]]
                if v and v[0] == 'rec': return s.ev(v[1][e[2]], want)
            raise Skip('sel ' + e[2])
        if k == 'lit':
            if e[1] in ('PhoneNumber',):
                t = 'phone0'
                fs = []
                for kv in e[2]: fs.append((kv[1][1], kv[2]))
                v = (PH, '(Ret phone0)')
                for f, x in fs: v = s.setf(v, f, x)
                return v
            if e[1] == 'NumberFormat': return s.nf(e)
            raise Skip('lit %s' % e[1])
        if k == 'slice':
            if e[1] == 'NumberFormat':
                xs = []
                for x in e[2]:
                    v = s.nf(x) if x[0] == 'lit' else s.ev(x)
                    if v[0] != 'nf': raise Skip('nfl')
                    xs.append(v[1])
                return ('nfl', '(Ret [%s])' % '; '.join(xs))
            raise Skip('slice')
        if k == 'call': return s.call(e, want)
        if k == 'idx':
            a = s.ev(e[1])
            if a[0] == TL:
                t = s.ev(e[2]); return (B, '(l <- %s ;; t <- %s ;; Ret (existsb (ptype_eqb t) l))' % (a[1], t[1]))
            raise Skip('idx')
        raise Skip(k)
    def nf(s, e):
        f = ['None', 'None', '[]', 'None', 'None', 'None']
        for kv in e[2]:
            i = NFIELD[kv[1][1]]; v = kv[2]
            if i == 2:
                f[2] = '[%s]' % '; '.join(coqstr(x[1]) for x in v[2])
            else: f[i] = s.protoval(v)
        return ('nf', '(Build_nfmt %s)' % ' '.join(f))
    def protoval(s, v):
        if v[0] == 'call' and v[1][0] == 'sel' and v[1][1] == ('id', 'proto'):
            a = v[2][0]
            if a[0] == 'str': return '(Some %s)' % coqstr(a[1])
            if a[0] == 'id' and a[1] in ('true', 'false'): return '(Some %s)' % a[1]
        raise Skip('protoval')
    def setf(s, v, f, x):
        setter, ty, _ = FIELD[f]
        if x == ('id', 'nil'): return (PH, '(p <- %s ;; Ret (%s p None))' % (v[1], setter))
        if x[0] == 'call' and x[1][0] == 'sel' and x[1][1] == ('id', 'proto'):
            a = s.ev(x[2][0], ty)
        elif x[0] == 'call' and x[1][0] == 'sel' and x[1][2] == 'Enum': a = s.ev(x[1][1], ty)
        elif x[0] == 'addr' and x[1][0] == 'id': a = s.ev(x[1], ty)
        else: raise Skip('field value %s' % (x,))
        if ty == 'N' and a[0] == I: a = ('N', '(z <- %s ;; Ret (Z.to_N z))' % a[1])
        if a[0] != ty: raise Skip('field type %s %s' % (a[0], ty))
        return (PH, '(p <- %s ;; x <- %s ;; Ret (%s p (Some x)))' % (v[1], a[1], setter))
    def call(s, e, want):
        f = e[1]; args = e[2]
        if f[0] == 'sel':
            if f[1] == ('id', 'proto'):
                if f[2] == 'Equal':
                    a = s.asphone(s.ev(args[0])); b = s.asphone(s.ev(args[1]))
                    return (B, '(a <- %s ;; b <- %s ;; Ret (phone_full_eqb a b))' % (a[1], b[1]))
                return s.ev(args[0], want)
            if f[1] == ('id', 'strings') and f[2] == 'Repeat':
                a = s.ev(args[0]); n = s.ev(args[1], NAT)
                return (S, '(a <- %s ;; n <- %s ;; Ret (List.concat (List.repeat a n)))' % (a[1], n[1]))
            if f[2].startswith('Get') and f[2][3:] in FIELD:
                st, ty, g = FIELD[f[2][3:]]
                v = s.asphone(s.ev(f[1]))
                if ty == 'N': return (I, '(p <- %s ;; Ret (Z.of_N (%s p)))' % (v[1], g))
                return (ty, '(p <- %s ;; Ret (%s p))' % (v[1], g))
            raise Skip('method ' + f[2])
        if f[0] != 'id': raise Skip('callee')
        n = f[1]
        if n in ('pn', 'newPhoneNumber') and len(args) == 2:
            v = (PH, '(Ret phone0)')
            for fld, x in (('CountryCode', args[0]), ('NationalNumber', args[1])):
                v = s.setf(v, fld, ('call', ('sel', ('id', 'proto'), 'X'), [x]))
            return v
        if n in ('int32', 'int', 'uint64', 'int64'): return s.ev(args[0], want)
        if n == 'len':
            a = s.ev(args[0])
            if a[0] == TL: return (NAT, '(l <- %s ;; Ret (List.length l))' % a[1])
            if a[0] == S: return (NAT, '(l <- %s ;; Ret (len l))' % a[1])
            raise Skip('len')
        if n in ('mustParse', 'mustParseAndKeepRawInput', 'parse'):
            fn = {'mustParse': 'Parse', 'parse': 'Parse', 'mustParseAndKeepRawInput': 'ParseAndKeepRawInput'}[n]
            v = s.call(('call', ('id', fn), args[1:]), None)
            return (PH, '(x <- %s ;; Ret (fst x))' % v[1])
        if n == 'atoui':
            a = s.ev(args[1], S)
            return ('N', '(x <- %s ;; Ret (parse_uint_val x))' % a[1])
        if n in s.fns and not s.fns[n][0]:  # user-defined constructor without arguments
            return s.userfn(s.fns[n][1])
        if n not in FUNCS: raise Skip('func ' + n)
        head, tys, rt, mon = FUNCS[n]
        if len(args) != len(tys): raise Skip('arity ' + n)
        bs, xs = '', ''
        for i, (a, ty) in enumerate(zip(args, tys)):
            v = s.ev(a, ty)
            if ty == PH: v = s.asphone(v)
            if v[0] != ty: raise Skip('arg type of %s: %s for %s' % (n, v[0], ty))
            s.fresh += 1
            x = 'x%d' % s.fresh
            bs += '%s <- %s ;; ' % (x, v[1]); xs += ' ' + x
        return (rt, '(%s%s)' % (bs, ('%s%s' if mon else 'Ret (%s%s)') % (head, xs)))
    def asphone(s, v):
        if v[0] == OP: return (PH, '(o <- %s ;; or_panic o)' % v[1])
        if v[0] != PH: raise Skip('phone expected, got %s' % v[0])
        return v
    def userfn(s, body):
        save = s.env; s.env = {}
        try:
            for st in body:
                if st[0] == 'ret': return s.ev(st[1])
                s.stmt(st)
            raise Skip('no return')
        finally: s.env = save
    def stmt(s, st):
        k = st[0]
        if k == 'bad': raise Skip('stmt ' + st[1])
        if k == 'blk':
            for x in st[1]: s.run(x)
            return
        if k == 'for': return s.loop(st)
        if k == 'asg': return s.asg(st)
        if k == 'expr': return s.exprst(st[1])
        raise Skip(k)
    def run(s, st):
        try: s.stmt(st)
        except (Skip, KeyError, IndexError, TypeError, AttributeError) as ex:
            s.skips.append(repr(ex)[:100])
            s.forget(st)
            if st[0] == 'asg':
                for l in st[1]:
                    while l[0] in ('sel', 'idx'): l = l[1]
                    if l[0] == 'id': s.env[l[1]] = None
    def forget(s, e):
        """Variables passed to a call that was not understood may have been modified."""
        if isinstance(e, (tuple, list)):
            if e and e[0] == 'call' and e[1][0] == 'id' and e[1][1] not in FUNCS:
                for a in e[2]:
                    if a[0] == 'id' and a[1] in s.env: s.env[a[1]] = None
            for x in e: s.forget(x)
    def loop(s, st):
        _, vs, e, body = st
        if e[0] != 'slice': raise Skip('loop')
        for i, x in enumerate(e[2]):
            if len(vs) == 2 and vs[1] != '_':
                if isinstance(e[1], tuple):
                    r = {}
                    for j, f in enumerate(x[2]):
                        if f[0] == 'kv': r[f[1][1]] = f[2]
                        else: r[e[1][1][j]] = f
                    s.env[vs[1]] = ('rec', r)
                else: s.env[vs[1]] = s.ev(x)
            for b in body: s.run(b)
    def asg(s, st):
        _, ls, rs = st
        if len(rs) == 1 and len(ls) == 2:
            v = s.ev(rs[0])
            if v[0] != 'parse': raise Skip('multi')
            if ls[0][1] != '_': s.env[ls[0][1]] = (PH, '(x <- %s ;; Ret (fst x))' % v[1])
            if ls[1][1] != '_': s.env[ls[1][1]] = ('operr', '(x <- %s ;; Ret (snd x))' % v[1])
            return
        for l, r in zip(ls, rs):
            if l[0] == 'id':
                if l[1] == '_': continue
                s.env[l[1]] = s.ev(r)
            elif l[0] == 'sel' and l[1][0] == 'id':
                v = s.env.get(l[1][1])
                if v and v[0] == PH: s.env[l[1][1]] = s.setf(v, l[2], r)
                elif v and v[0] == 'nf':
                    raise Skip('nf field')
                else: raise Skip('assign')
            else: raise Skip('assign')
    def emit(s, t): s.checks.append((s.cont, t))
    def eq(s, a, b):
        if a[0] == b[0] and a[0] in EQ:
            return 'match %s, %s with Ret a, Ret b => %s a b | _, _ => false end' % (a[1], b[1], EQ[a[0]])
        raise Skip('eq %s %s' % (a[0], b[0]))
    def pair(s, x, y):
        b = s.ev(y); a = s.ev(x, b[0] if b[0] in (NAT,) else None)
        if a[0] == 'chr' or b[0] == 'chr': raise Skip('chr')
        if a[0] == PH or b[0] == PH: a = s.asphone(a); b = s.asphone(b)
        return a, b
    def exprst(s, e):
        if e[0] != 'call': raise Skip('expr')
        f, args = e[1], e[2]
        if f == ('id', 'useTestMetadata'): s.cont = 'test_container'; return
        if f == ('id', 'assertThrowsForInvalidPhoneContext'):
            v = s.call(('call', ('id', 'Parse'), [args[1], ('sel', ('id', 'regionCode'), 'ZZ')]), None)
            s.emit('match %s with Ret (_, Some ErrNotANumber) => true | _ => false end' % v[1]); return
        if f[0] == 'sel' and f[1] in (('id', 'assert'), ('id', 'require')):
            n = f[2]; args = args[1:]
            if n == 'Equal': s.emit(s.eq(*s.pair(args[0], args[1]))); return
            if n == 'NotEqual': s.emit('negb (%s)' % s.eq(*s.pair(args[0], args[1]))); return
            if n in ('True', 'False'):
                a = args[0]
                if a[0] == 'call' and a[1] == ('id', 'TruncateTooLongNumber') and a[2][0][0] == 'id':
                    x = a[2][0][1]; c = '(p <- %s ;; TruncateTooLongNumber C p)' % s.env[x][1]
                    s.env[x] = (PH, '(r <- %s ;; Ret (snd r))' % c); v = (B, '(r <- %s ;; Ret (fst r))' % c)
                else: v = s.ev(a)
                if v[0] != B: raise Skip('bool')
                s.emit('match %s with Ret %s => true | _ => false end' % (v[1], n.lower())); return
            if n in ('NoError',):
                v = s.ev(args[0])
                if v[0] != 'operr': raise Skip('noerror')
                s.emit('match %s with Ret None => true | _ => false end' % v[1]); return
            if n == 'Error':
                v = s.ev(args[0])
                if v[0] != 'operr': raise Skip('error')
                s.emit('match %s with Ret (Some _) => true | _ => false end' % v[1]); return
            if n == 'ErrorIs':
                v = s.ev(args[0])
                if v[0] != 'operr' or args[1][0] != 'id': raise Skip('erroris')
                s.emit('match %s with Ret (Some %s) => true | _ => false end' % (v[1], args[1][1])); return
            if n in ('Nil', 'NotNil'):
                v = s.ev(args[0])
                if v[0] == 'operr' and n == 'Nil': s.emit('match %s with Ret None => true | _ => false end' % v[1]); return
                if v[0] != OP: raise Skip('nil')
                s.emit('match %s with Ret %s => true | _ => false end' % (v[1], 'None' if n == 'Nil' else '(Some _)')); return
            raise Skip('assert.' + n)
        if f[0] == 'sel' and f[1] == ('id', 't'): return
        raise Skip('call stmt')

def functions(src):
    """Top-level functions: name -> (has_params_besides_t, is_test, token list of the body)."""
    res = []
    for m in re.finditer(r'^func (\w+)\(([^)]*)\)[^\n]*?\{', src, re.M):
        i = m.end() - 1; toks = lex(src[i:])
        d = 0; n = 0
        for n, t in enumerate(toks):
            if t == ('op', '{'): d += 1
            elif t == ('op', '}'):
                d -= 1
                if d == 0: break
        res.append((m.group(1), m.group(2), toks[:n+1]))
    return res

def ctor_body(toks):
    """Body of a constructor-like function, with its final return."""
    p = P(toks); p.eat('{'); r = []
    while not p.at('}'):
        if p.opt(';'): continue
        if p.opt('return'):
            r.append(('ret', p.expr())); p.opt(';'); continue
        r.append(p.stmt())
    return r

HEAD = """(** Generated by gen/conformance.py from %s of the repository: DO NOT EDIT.
    Unit-test assertions of the repository evaluated on the model (fidelity evidence, not properties).
    %d assertions translated, %d statements not translated. *)
From Coq Require Import List NArith ZArith Bool.
From Verif Require Import Base Types Normalize Validate Format Parse ConformanceBase Shipped TestXml%s.
Import ListNotations.
Local Open Scope N_scope.

"""

def main():
    repo, out, files = sys.argv[1], sys.argv[2], sys.argv[3:]
    fns = {}; tests = []
    for fn in files:
        src = open(repo + '/' + fn).read()
        for name, params, toks in functions(src):
            if name.startswith('Test'): tests.append((fn, name, toks))
            elif params.strip() == '':
                try: fns[name] = (False, ctor_body(toks))
                except SyntaxError: pass
    total = skipped = 0; lines = []; why = {}
    for fn, name, toks in tests:
        t = T(fns)
        for st in P(toks).block(): t.run(st)
        total += len(t.checks); skipped += len(t.skips)
        for w in t.skips: why[w] = why.get(w, 0) + 1
        if t.checks:
            body = ';\n   '.join('(let C := %s in %s%s)' % (c, 'let SC := shipped_short in ' if re.search(r'\bSC\b', x) else '', x) for c, x in t.checks)
            lines.append('(* %s: %s, %d checks, %d statements not translated *)\nDefinition %s : list bool :=\n  [%s].\n' % (fn, name, len(t.checks), len(t.skips), name, body))
    names = [re.search(r'Definition (\w+)', l).group(1) for l in lines]
    with open(out, 'w') as f:
        f.write(HEAD % (' '.join(files), total, skipped, ' ShortNumber ShippedShort' if any('let SC' in l for l in lines) else ''))
        for l, n in zip(lines, names):
            f.write(l)
            f.write('\nLemma %s_ok : forallb (fun b => b) %s = true.\nProof. vm_cast_no_check (eq_refl true). Qed.\n\n' % (n, n))
    print(total, 'checks', skipped, 'skipped')
    for w, c in sorted(why.items(), key=lambda x: -x[1])[:60]: print(c, w)
main()
