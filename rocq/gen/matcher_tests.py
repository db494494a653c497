#!/usr/bin/env python3
"""Translates phonenumbermatcher_test.go (read as text) into cases that are evaluated on the model.
Usage: python3 gen/matcher_tests.py /repo theories/ConformanceMatcher.v [all]
Without "all", the context tests keep one number in four and three contexts of each kind (the whole set was evaluated once)."""
import re, sys
src = open(sys.argv[1] + '/phonenumbermatcher_test.go', encoding='utf-8').read()
ALL = len(sys.argv) > 3
S = r'"(?:[^"\\]|\\.)*"'
def unesc(s):
    s = s[1:-1]
    s = re.sub(r'\\u([0-9a-fA-F]{4})', lambda m: chr(int(m.group(1), 16)), s)
    return s.replace('\\t', '\t')
def cb(s):
    b = s.encode()
    return '(bs "%s")' % b.decode() if all(32 <= c < 127 and c != 34 for c in b) else '[' + '; '.join(map(str, b)) + ']'
def region(s): return '' if s == '""' else s.split('.')[1]
def body(name): return re.search(r'^func %s\(.*?^\}' % name, src, re.M | re.S).group(0)
out = ['''(** Generated by gen/matcher_tests.py from phonenumbermatcher_test.go of the repository: DO NOT EDIT.
    The repository's own matcher tests evaluated on the model (fidelity evidence, not properties). *)
From Verif Require Import Base Types Parse Validate Matcher AltData Shipped TestXml ConformanceBase.

Definition A : alt_map := alt_map_of alt_collection.
Definition M0 text region l := newPhoneNumberMatcher text region l max_int.
(* the first match starts at [start] and reads [raw] *)
Definition first_is (c : leniency * bytes * bytes * nat * bytes) : bool :=
  let '(l, text, region, start, raw) := c in
  match next test_container A (M0 text region l) with
  | Ret (_, Some p) => Nat.eqb (pm_start p) start && beq (pm_raw p) raw
  | _ => false
  end.
Definition none_found (c : leniency * bytes * bytes) : bool :=
  let '(l, text, region) := c in
  match hasNext test_container A (M0 text region l) with Ret (_, false) => true | _ => false end.
(* every match found has this raw text and equals the parsed raw text *)
Definition all_are (c : leniency * bytes * bytes * list (nat * bytes)) : bool :=
  let '(l, text, region, raws) := c in
  match FindNumbersWithLeniency test_container A text region l max_int (fun _ => true) with
  | Ret (ms, _) =>
      Nat.eqb (List.length ms) (List.length raws) &&
      forallb (fun mr => match mr with
                         | (Some p, (s, r)) =>
                             beq (pm_raw p) r && Nat.eqb (pm_start p) s &&
                             match Parse test_container r region with
                             | Ret (n, None) => phone_full_eqb n (pm_number p)
                             | _ => false
                             end
                         | _ => false
                         end) (combine ms raws)
  | _ => false
  end.
''']
nlem = 0
def lemma(name, fn, cases):
    global nlem
    for i in range(0, len(cases), 40):
        out.append('Lemma %s_%d : forallb %s [%s] = true.\nProof. vm_cast_no_check (eq_refl true). Qed.\n' % (name, i // 40, fn, ';\n  '.join(cases[i:i+40])))
    nlem += len(cases)
def first(l, text, reg, start, raw): return '(%s, %s, %s, %d%%nat, %s)' % (l, cb(text), cb(reg), start, cb(raw))
def none(l, text, reg): return '(%s, %s, %s)' % (l, cb(text), cb(reg))
lists = {}
for m in re.finditer(r'^var (\w+) = \[\]numberTest\{\n(.*?)^\}', src, re.M | re.S):
    lists[m.group(1)] = [(unesc(a), region(b)) for a, b in re.findall(r'\{(%s), (regionCode\.\w+|"")\}' % S, m.group(2))]
for m in re.finditer(r'^func (Test\w+Lenienc\w+)\(t \*testing\.T\) \{\n(.*?)^\}', src, re.M | re.S):
    k = re.search(r'doTestNumber(Non)?MatchesForLeniency\(t, (\w+), (\w+)\)', m.group(2))
    names = re.findall(r'append\(testCases, (\w+)\.\.\.\)', m.group(2)) or [k.group(2)]
    cs = [c for n in names for c in lists[n]]
    if k.group(1): lemma(m.group(1), 'none_found', [none(k.group(3), a, b) for a, b in cs])
    else: lemma(m.group(1), 'first_is', [first(k.group(3), a, b, 0, a) for a, b in cs])
def contexts(s): return [(unesc(a), unesc(b)) for a, b in re.findall(r'\{(%s), (%s)\}' % (S, S), s)]
poss, val = contexts(body('findPossibleInContext')), contexts(body('findValidInContext'))
ctx = re.findall(r'doTestFindInContext\(t, ((?:%s)(?:\s*\+\s*%s)*), (regionCode\.\w+|"")\)' % (S, S), src)
cases_p, cases_v = [], []
for i, (num, reg) in enumerate(ctx):
    num = ''.join(unesc(x) for x in re.findall(S, num)); reg = region(reg)
    if not ALL and i % 4: continue
    for j, (a, b) in enumerate(poss):
        if ALL or j % 6 == i % 6: cases_p.append(first('POSSIBLE', a + num + b, reg, len(a.encode()), num))
    for j, (a, b) in enumerate(val):
        if ALL or j % 3 == i % 3: cases_v.append((num, reg, first('VALID', a + num + b, reg, len(a.encode()), num)))
lemma('in_context_possible', 'first_is', cases_p)
out.append('''(* findValidInContext only runs for valid numbers *)
Definition valid_first_is (c : leniency * bytes * bytes * nat * bytes) : bool :=
  let '(l, text, region, start, raw) := c in
  match Parse test_container raw region with
  | Ret (n, None) => match IsValidNumber test_container n with Ret true => first_is c | Ret false => true | _ => false end
  | _ => false
  end.
''')
lemma('in_context_valid', 'valid_first_is', [c for _, _, c in cases_v])
for m in re.finditer(r'^func (Test\w+)\(t \*testing\.T\) \{\n(.*?)^\}', src, re.M | re.S):
    b = m.group(2)
    env = {k: contexts(v) for k, v in re.findall(r'(\w+) := \[\]numberContext\{(.*?)\}\n', b, re.S)}
    strs = dict((k, unesc(v)) for k, v in re.findall(r'(\w+) := (%s)\n' % S, b))
    cs = [(c, v, p, 'US', '415-666-7777') for c, v, p in re.findall(r'findMatchesInContexts\(t, (\w+), (\w+), (\w+)\)', b)]
    cs += [(c, v, p, r, strs[n]) for c, v, p, r, n in re.findall(r'findMatchesInContextsFor\(t, (\w+), (\w+), (\w+), regionCode\.(\w+), (\w+)\)', b)]
    f, n = [], []
    for c, v, p, r, num in cs:
        for a, z in env[c]:
            for l, ok in (('VALID', v), ('POSSIBLE', p)):
                if ok == 'true': f.append(first(l, a + num + z, r, len(a.encode()), num))
                else: n.append(none(l, a + num + z, r))
    if f: lemma(m.group(1) + '_found', 'first_is', f)
    if n: lemma(m.group(1) + '_none', 'none_found', n)
    ns = [none('VALID', unesc(a), region(r)) for a, r in re.findall(r'hasNoMatches\(findMatcher\((%s), (regionCode\.\w+|"")\)\)' % S, b)]
    if ns: lemma(m.group(1) + '_no', 'none_found', ns)
t = 'Call 033316005  or 032316005!'
lemma('TestIntermediateParsePositions', 'first_is',
      [first('POSSIBLE', t[i:], 'NZ', 5 - i, t[5:14]) for i in range(6)] + [first('POSSIBLE', t[6:], 'NZ', 0, t[6:14]), first('POSSIBLE', t[7:], 'NZ', 0, t[7:14])] +
      [first('POSSIBLE', t[i:], 'NZ', 19 - i, t[19:28]) for i in range(8, 20)])
def alls(l, parts, reg, raws):
    text = ''.join(parts); pos = 0; r = []
    for x in raws: pos = text.index(x, pos); r.append('(%d%%nat, %s)' % (len(text[:pos].encode()), cb(x))); pos += len(x)
    return '(%s, %s, %s, [%s])' % (l, cb(text), cb(reg), '; '.join(r))
four = ['415-666-7777', '800-443-1223', '212-443-1223', '650-443-1223']
lemma('sequences', 'all_are', [
    alls('VALID', [' - '.join(four)], 'US', four),
    alls('VALID', ['(415) 666-7777 (800) 443-1223'], 'US', ['(415) 666-7777', '(800) 443-1223']),
    alls('VALID', ['My address is CA 34215 - 415-666-7777 is my number.'], 'US', ['415-666-7777']),
    alls('VALID', ['My number is (415) 666 7777. 34215 is my zip-code.'], 'US', ['(415) 666 7777']),
    alls('VALID', ['Call 650-253-4561 -- 455-234-3451'], 'US', ['650-253-4561', '455-234-3451']),
    alls('VALID', ['Call 650-253-4561--455-234-3451'], 'US', []),
    alls('POSSIBLE', [t], 'NZ', ['033316005', '032316005']),
    alls('VALID', ['1 456 764 156'], 'ZZ', []),
    alls('VALID', ['+14156667777'], 'ZZ', ['+14156667777']),
    alls('VALID', ['+14156667777 foobar +14156667777 '], 'ZZ', ['+14156667777', '+14156667777'])])
out.append('''(* TestMaxMatches, TestMaxMatchesInvalid, TestMaxMatchesMixed: number of matches with maxTries 10 *)
Fixpoint times (k : nat) (s : bytes) : bytes := match k with O => [] | S k => s ++ times k s end.
Definition count_with (text : bytes) : option nat :=
  match FindNumbersWithLeniency test_container A text (bs "US") VALID 10 (fun _ => true) with
  | Ret (ms, _) => Some (List.length ms)
  | _ => None
  end.
Definition ok_count (c : bytes * nat) : bool := match count_with (fst c) with Some k => Nat.eqb k (snd c) | None => false end.
''')
lemma('max_matches', 'ok_count', [
    '(times %s (bs "My info: 415-666-7777,"), %s%%nat)' % (('100', '100') if ALL else ('15', '15')),
    '(times 10 (bs "My address 949-8945-0") ++ times %s (bs "My info: 415-666-7777,"), 0%%nat)' % ('100' if ALL else '5'),
    '(times %s (bs "My info: 415-666-7777 123 fake street"), 10%%nat)' % ('100' if ALL else '13')])
out.append('''(* TestContainsMoreThanOneSlashInNationalNumber *)
Definition slashes (c : Z * ccsource * bytes * bool) : bool :=
  let '(cc, src, s, b) := c in
  Bool.eqb (containsMoreThanOneSlashInNationalNumber (set_src (set_cc phone0 (Some cc)) (Some src)) s) b.
''')
cs = []; cur = None
for m in re.finditer(r'CountryCode: proto\.Int32\((\d+)\), CountryCodeSource: ccSource\(PhoneNumber_(\w+)\)|assert\.(True|False)\(t, containsMoreThanOneSlashInNationalNumber\(number, (%s)\)\)' % S, body('TestContainsMoreThanOneSlashInNationalNumber')):
    if m.group(1): cur = m.group(1, 2)
    else: cs.append('(%s%%Z, %s, %s, %s)' % (cur[0], cur[1], cb(unesc(m.group(4))), m.group(3).lower()))
lemma('TestContainsMoreThanOneSlash', 'slashes', cs)
cs = ['(%d, %s)' % (ord(c), b.lower()) for b, c in re.findall(r"assert\.(True|False)\(t, isLatinLetter\('(.)'\)\)", src)]
lemma('TestIsLatinLetter', '(fun c => Bool.eqb (isLatinLetter (fst c)) (snd c))', cs)
open(sys.argv[2], 'w').write('\n'.join(out))
print(nlem, 'cases')
