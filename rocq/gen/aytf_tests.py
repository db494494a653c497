#!/usr/bin/env python3
"""Translates asyoutypeformatter_test.go (read as text) into key-stroke scripts that are run on the model.
Usage: python3 gen/aytf_tests.py /repo theories/ConformanceAytf.v"""
import re, sys
src = open(sys.argv[1] + '/asyoutypeformatter_test.go', encoding='utf-8').read()
def unesc(s): return re.sub(r'\\u([0-9a-fA-F]{4})', lambda m: chr(int(m.group(1), 16)), s)
def cb(s):
    b = unesc(s).encode()
    return '(bs "%s")' % b.decode() if all(32 <= c < 127 for c in b) else '[' + '; '.join(map(str, b)) + ']'
def rune(s): return str(ord(unesc(s)))
out = ['''(** Generated by gen/aytf_tests.py from asyoutypeformatter_test.go of the repository: DO NOT EDIT.
    The repository's own key-stroke tests evaluated on the model (fidelity evidence, not properties). *)
From Verif Require Import Base Types Shipped TestXml AsYouType.

Inductive op := New (region : bytes) | Cl | In (c : N) (expected : bytes) | InR (c : N) (expected : bytes) | In_ (c : N) | InR_ (c : N) | Pos (p : nat) | Ndd (p : bytes).
Fixpoint run (s : aytf) (l : list op) : bool :=
  match l with
  | [] => true
  | New r :: t => run (GetAsYouTypeFormatter test_container r) t
  | Cl :: t => run (Clear test_container s) t
  | In c e :: t => match InputDigit test_container s c with Ret (s, o) => beq o e && run s t | _ => false end
  | InR c e :: t => match InputDigitAndRememberPosition test_container s c with Ret (s, o) => beq o e && run s t | _ => false end
  | In_ c :: t => match InputDigit test_container s c with Ret (s, _) => run s t | _ => false end
  | InR_ c :: t => match InputDigitAndRememberPosition test_container s c with Ret (s, _) => run s t | _ => false end
  | Pos p :: t => match GetRememberedPosition s with Ret q => Nat.eqb p q && run s t | _ => false end
  | Ndd p :: t => beq (f_ndd s) p && run s t
  end.
''']
n = bad = 0
for m in re.finditer(r'^func (Test\w+)\(t \*testing\.T\) \{\n(.*?)^\}', src, re.M | re.S):
    ops = []
    for line in m.group(2).split('\n'):
        l = line.strip()
        if not l or l.startswith('//') or l == 'useTestMetadata(t)': continue
        for pat, f in [
            (r'f :?= GetAsYouTypeFormatter\(regionCode\.(\w+)\)$', lambda a: 'New (bs "%s")' % a.replace('UN001', '001')),
            (r'f\.Clear\(\)$', lambda: 'Cl'),
            (r'''require\.Equal\(t, "((?:[^"\\]|\\.)*)", f\.InputDigit\('((?:[^'\\]|\\.)+)'\)\)$''', lambda e, c: 'In %s %s' % (rune(c), cb(e))),
            (r'''require\.Equal\(t, "((?:[^"\\]|\\.)*)", f\.InputDigitAndRememberPosition\('((?:[^'\\]|\\.)+)'\)\)$''', lambda e, c: 'InR %s %s' % (rune(c), cb(e))),
            (r'''f\.InputDigit\('((?:[^'\\]|\\.)+)'\)$''', lambda c: 'In_ ' + rune(c)),
            (r'''f\.InputDigitAndRememberPosition\('((?:[^'\\]|\\.)+)'\)$''', lambda c: 'InR_ ' + rune(c)),
            (r'require\.Equal\(t, (\d+), f\.GetRememberedPosition\(\)\)$', lambda p: 'Pos ' + p),
            (r'require\.Equal\(t, "(\d*)", f\.getExtractedNationalPrefix\(\)\)$', lambda p: 'Ndd ' + cb(p))]:
            k = re.match(pat, l)
            if k: ops.append(f(*k.groups())); n += 1; break
        else: bad += 1; print('skip', l)
    out.append('Definition %s : list op :=\n  [%s].\nLemma %s_ok : run (GetAsYouTypeFormatter test_container []) %s = true.\nProof. vm_cast_no_check (eq_refl true). Qed.\n' % (m.group(1), '; '.join(ops), m.group(1), m.group(1)))
open(sys.argv[2], 'w').write('\n'.join(out))
print(n, 'operations,', bad, 'lines not translated')
