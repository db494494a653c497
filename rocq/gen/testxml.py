#!/usr/bin/env python3
"""Writes theories/TestXml.v from testdata/PhoneNumberMetadataForTesting.xml, the synthetic metadata of the repository's own
test-suite: the XML elements as Coq records (Builder.v); the metadata itself is built by the modelled builder.

Usage: python3 gen/testxml.py /repo theories"""
import sys, xml.etree.ElementTree as ET
repo, out = sys.argv[1], sys.argv[2]
def s(v):
    v = v or ''
    return 'bs "%s"' % v.replace('"', '""')
def b(v): return 'true' if v in ('true', '1') else 'false'
def txt(e, tag):
    x = e.findall(tag)
    return (x[-1].text or '') if x else ''
def de(t, tag):
    x = t.findall(tag)
    if not x: return 'None'
    e = x[-1]
    pl = e.findall('possibleLengths')
    l = 'None' if not pl else '(Some (Build_length_e (%s) (%s)))' % (s(pl[-1].get('national')), s(pl[-1].get('localOnly')))
    return '(Some (Build_desc_e (%s) %s (%s)))' % (s(txt(e, 'nationalNumberPattern')), l, s(txt(e, 'exampleNumber')))
def fe(e):
    o = e.get('nationalPrefixOptionalWhenFormatting')
    return 'Build_nfmt_e [%s] (%s) [%s] (%s) %s (%s) (%s)' % ('; '.join(s(x.text) for x in e.findall('leadingDigits')), s(txt(e, 'format')),
        '; '.join(s(x.text) for x in e.findall('intlFormat')), s(e.get('nationalPrefixFormattingRule')),
        'None' if o is None else '(Some %s)' % b(o), s(e.get('carrierCodeFormattingRule')), s(e.get('pattern')))
root = ET.parse(repo + '/testdata/PhoneNumberMetadataForTesting.xml').getroot()
with open(out + '/TestXml.v', 'w') as f:
    f.write('(** Generated by gen/testxml.py from testdata/PhoneNumberMetadataForTesting.xml. Do not edit. *)\nFrom Verif Require Import Base Types Builder Container.\n\n')
    names = []
    for i, t in enumerate(root.find('territories').findall('territory')):
        n = 'tx_%d' % i; names.append(n)
        g = t.get
        f.write('Definition %s : terr_e := Eval vm_compute in Build_terr_e (%s) %s (%s) (%s)%%Z (%s) (%s)\n  (%s) (%s) %s (%s) (%s)\n  (%s) %s (%s)\n  [%s]\n' % (n, s(g('id')), b(g('mainCountryForCode')), s(g('leadingDigits')), g('countryCode'),
            s(g('nationalPrefix')), s(g('internationalPrefix')), s(g('preferredInternationalPrefix')), s(g('nationalPrefixFormattingRule')), b(g('mobileNumberPortableRegion')),
            s(g('nationalPrefixForParsing')), s(g('nationalPrefixTransformRule')), s(g('preferredExtnPrefix')), b(g('nationalPrefixOptionalWhenFormatting')), s(g('carrierCodeFormattingRule')),
            ';\n   '.join(fe(e) for a in t.findall('availableFormats') for e in a.findall('numberFormat'))))
        for tag in 'generalDesc noInternationalDialling fixedLine mobile pager tollFree premiumRate sharedCost personalNumber voip uan voicemail standardRate shortCode emergency carrierSpecific smsServices'.split():
            f.write('  %s\n' % de(t, tag))
        f.write('  .\n\n')
    f.write('Definition test_doc : list terr_e := [%s].\n\n' % '; '.join(names))
    f.write('''(** The synthetic metadata, compiled the way testmetadata_test.go:48-62 does: by the (modelled) builder. *)
Definition test_built : M (list meta) := Eval vm_compute in BuildPhoneMetadataCollection test_doc false.
Definition test_collection : list meta := Eval vm_compute in match test_built with Ret l => l | _ => [] end.
Definition test_made : M container := Eval vm_compute in NewContainer test_collection (BuildCountryCodeToRegionMap test_collection).
Definition test_container : container := Eval vm_compute in
  match test_made with Ret c => c | _ => Build_container [] [] [] [] [] [] [] end.
''')
