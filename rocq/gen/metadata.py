#!/usr/bin/env python3
"""Writes theories/MetadataData.v, ShortData.v and AltData.v from the blobs embedded in the repository.

Usage: python3 gen/metadata.py /repo theories
The blobs are gunzipped and their protobuf encoding (phonemetadata.proto) is read by pbdec.py; no repository code runs."""
import sys, os, gzip
sys.path.insert(0, os.path.dirname(os.path.abspath(__file__)))
import pbdec
repo, out = sys.argv[1], sys.argv[2]

def signed(x): return x - (1 << 64) if x >= (1 << 63) else x
def s(v):
    assert all(32 <= ord(c) < 127 for c in v), v
    return 'bs "%s"' % v.replace('"', '""')
def so(d, k): return '(Some (%s))' % s(d[k]) if k in d else 'None'
def zo(d, k): return '(Some (%d)%%Z)' % signed(d[k]) if k in d else 'None'
def bo(d, k): return '(Some %s)' % ('true' if d[k] else 'false') if k in d else 'None'
def zl(l): return '[' + '; '.join('(%d)%%Z' % signed(x) for x in l) + ']'
def desc(d, k):
    if k not in d: return 'None'
    x = d[k]
    return '(Some (Build_desc %s %s %s %s))' % (so(x, 'pattern'), zl(x.get('len', [])), zl(x.get('local', [])), so(x, 'example'))
def nf(x):
    return 'Build_nfmt %s %s [%s] %s %s %s' % (so(x, 'pattern'), so(x, 'format'),
        '; '.join(s(v) for v in x.get('leading', [])), so(x, 'npfr'), bo(x, 'npopt'), so(x, 'dccfr'))
def nfl(l): return '[' + ';\n    '.join(nf(x) for x in l) + ']'
DS = 'general fixed mobile tollfree premium shared personal voip pager uan emergency voicemail shortcode stdrate carrier sms noint'.split()
def meta(name, d):
    r = 'Definition %s : meta := Eval vm_compute in Build_meta\n' % name
    for k in DS: r += '  %s\n' % desc(d, k)
    r += '  %s %s %s %s %s\n' % (so(d, 'id'), zo(d, 'cc'), so(d, 'iprefix'), so(d, 'pref_iprefix'), so(d, 'nprefix'))
    r += '  %s %s %s %s\n' % (so(d, 'extn'), so(d, 'np_parse'), so(d, 'np_transform'), bo(d, 'same'))
    r += '  %s\n  %s\n' % (nfl(d.get('nf', [])), nfl(d.get('inf', [])))
    r += '  %s %s %s.\n' % (bo(d, 'main'), so(d, 'leading'), bo(d, 'mnp'))
    return r
def nm(pfx, d): return '%s_%s' % (pfx, d['id'] if d['id'] != '001' else '001_%d' % d['cc'])

def region_map():
    b = gzip.open(repo + '/metadata/data/countrycode_to_region.xml.gz').read()
    n = int.from_bytes(b[0:4], 'little'); vals = b[4:4+n].decode().split('\n'); i = 4 + n
    cnt = int.from_bytes(b[i:i+4], 'little'); i += 4
    key = 0; res = []
    for _ in range(cnt):
        d, i = pbdec.varint(b, i); key += d
        c = b[i]; i += 1; l = []
        for _ in range(c):
            l.append(vals[int.from_bytes(b[i:i+2], 'little')]); i += 2
        res.append((key, l))
    assert i == len(b)
    return b, res

HEAD = '(** Generated by gen/metadata.py from %s. Do not edit. *)\nFrom Verif Require Import Base Types.\n\n'
ms = pbdec.load(repo + '/metadata/data/metadata.xml.gz')
raw, rm = region_map()
with open(out + '/MetadataData.v', 'w') as f:
    f.write(HEAD % 'metadata/data/metadata.xml.gz and countrycode_to_region.xml.gz')
    for d in ms: f.write(meta(nm('md', d), d) + '\n')
    f.write('(** The metadata collection, in file order. *)\nDefinition shipped_collection : list meta :=\n  [%s].\n\n' % ';\n   '.join(nm('md', d) for d in ms))
    f.write('(** The decoded country-calling-code map, in file order. *)\nDefinition shipped_cc2region : list (Z * list bytes) := Eval vm_compute in\n  [%s].\n\n'
            % ';\n   '.join('(%d%%Z, [%s])' % (k, '; '.join(s(v) for v in l)) for k, l in rm))
    f.write('(** The gunzipped bytes of countrycode_to_region.xml.gz. *)\nDefinition shipped_region_blob : bytes :=\n  [%s].\n' % '; '.join(map(str, raw)))
ss = pbdec.load(repo + '/data/shortnumber_metadata.xml.gz')
with open(out + '/ShortData.v', 'w') as f:
    f.write(HEAD % 'data/shortnumber_metadata.xml.gz')
    for d in ss: f.write(meta(nm('sh', d), d) + '\n')
    f.write('(** The short-number collection, in file order. *)\nDefinition short_collection : list meta :=\n  [%s].\n' % ';\n   '.join(nm('sh', d) for d in ss))
al = pbdec.load(repo + '/data/alternateformats_metadata.xml.gz')
with open(out + '/AltData.v', 'w') as f:
    f.write(HEAD % 'data/alternateformats_metadata.xml.gz')
    for d in al: f.write(meta('alt_%d' % d['cc'], d) + '\n')
    f.write('(** The alternate-formats collection, in file order. *)\nDefinition alt_collection : list meta :=\n  [%s].\n' % ';\n   '.join('alt_%d' % d['cc'] for d in al))
geo = [d for d in ms if d['id'] != '001']
non = [d for d in ms if d['id'] == '001']
assert len(set(d['id'] for d in geo)) == len(geo)
ng = [k for k, l in rm if l == ['001']]
rs = []
for k, l in rm:
    if l != ['001']:
        for r in l:
            if r not in rs and r != '001': rs.append(r)
with open(out + '/Shipped.v', 'w') as f:
    f.write('''(** Generated by gen/metadata.py. Do not edit.
    The container the library builds at start-up from the embedded metadata (metadata/source.go:66-91, init and Load),
    and a proof that it is what the modelled NewContainer returns. *)
From Verif Require Import Base Types Consts Container MetadataData.

''')
    f.write('Definition shipped_regions : list bytes := Eval vm_compute in\n  [%s].\n\n' % '; '.join(s(r) for r in rs))
    f.write('Definition shipped_region_map : list (bytes * meta) :=\n  [%s].\n\n' % ';\n   '.join('(%s, %s)' % (s(d['id']), nm('md', d)) for d in geo))
    f.write('Definition shipped_nongeo_map : list (Z * meta) :=\n  [%s].\n\n' % ';\n   '.join('(%d%%Z, %s)' % (d['cc'], nm('md', d)) for d in non))
    f.write('''Definition shipped : container :=
  {| c_cc2region := shipped_cc2region;
     c_region := shipped_region_map;
     c_nongeo := shipped_nongeo_map;
     c_nanpa := [%s];
     c_regions := shipped_regions;
     c_codes := map fst shipped_cc2region;
     c_nongeo_codes := [%s] |}.

Lemma shipped_is_NewContainer : NewContainer shipped_collection shipped_cc2region = Ret shipped.
Proof. vm_cast_no_check (eq_refl (Ret shipped)). Qed.
''' % ('; '.join(s(r) for r in dict(rm)[1]), '; '.join('%d%%Z' % k for k in ng)))
