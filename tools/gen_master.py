#!/usr/bin/env python3
"""Writes rocq/theories/Master.v: the element tree of /repo/xml/adesmaster.xml,
restricted to XSDTypes, XSDElementTypes and PSVObservationFields, with the
documentation (doc elements and attributes, text nodes, comments) left out.
The text nodes are white space only: the script stops if one is not."""
import xml.etree.ElementTree as T, sys
SRC = sys.argv[1] if len(sys.argv) > 1 else '/repo/xml/adesmaster.xml'
root = T.parse(SRC).getroot()
def q(s):
    assert all(32 <= ord(c) < 127 for c in s), s
    return '$"' + s.replace('"', '""') + '"'
def em(e, ind):
    assert not (e.text or '').strip(), (e.tag, e.text)
    attrs = '; '.join('(%s, %s)' % (q(k), q(v)) for k, v in e.attrib.items() if k not in ('doc', 'purpose'))
    kids = [k for k in e if isinstance(k.tag, str) and k.tag != 'doc']
    for k in e: assert not (k.tail or '').strip(), (e.tag, k.tail)
    pad = ' ' * ind
    if not kids:
        return '%sElem %s [%s] [] []' % (pad, q(e.tag), attrs)
    return '%sElem %s [%s] [] [\n%s]' % (pad, q(e.tag), attrs, ';\n'.join(em(k, ind + 1) for k in kids))
out = ['(** GENERATED by tools/gen_master.py from xml/adesmaster.xml: do not edit.',
       '    The element tree of xml/adesmaster.xml restricted to XSDTypes,',
       '    XSDElementTypes and PSVObservationFields; doc elements and attributes,',
       '    comments and (white space) text nodes are left out. *)',
       'From Verif Require Import Xml.', '']
names = []
for n, e in enumerate(k for k in root if k.tag in ('XSDTypes', 'XSDElementTypes', 'PSVObservationFields')):
    nm = 'master_%d' % n
    names.append(nm)
    out.append('(** /ades/%s %s *)' % (e.tag, (e.attrib.get('purpose') or '').replace('*', '')))
    out.append('Definition %s : xml :=\n%s.\n' % (nm, em(e, 1)))
out.append('(** xml/adesmaster.xml *)')
out.append('Definition adesmaster : xml := Elem $"ades" [] [] [%s].' % '; '.join(names))
open('/verif/rocq/theories/Master.v', 'w').write('\n'.join(out) + '\n')
