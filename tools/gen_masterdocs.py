#!/usr/bin/env python3
"""Writes rocq/theories/MasterDocs.v: as gen_master.py, but with the doc elements
and attributes.  Text nodes outside docs are white space only (checked), docs have
no children (checked)."""
import xml.etree.ElementTree as T, sys
SRC = sys.argv[1] if len(sys.argv) > 1 else '/repo/xml/adesmaster.xml'
root = T.parse(SRC).getroot()
def q(s):
    assert all(32 <= ord(c) < 127 or c == '\n' for c in s), s
    return '$"' + s.replace('"', '""') + '"'
def em(e, ind):
    if e.tag == 'doc':
        assert not len(e) and not e.attrib, e.attrib
        return '%sElem $"doc" [] %s []' % (' ' * ind, q(e.text or ''))
    assert not (e.text or '').strip(), (e.tag, e.text)
    attrs = '; '.join('(%s, %s)' % (q(k), q(v)) for k, v in e.attrib.items())
    for k in e: assert not (k.tail or '').strip(), (e.tag, k.tail)
    kids = list(e)
    pad = ' ' * ind
    if not kids:
        return '%sElem %s [%s] [] []' % (pad, q(e.tag), attrs)
    return '%sElem %s [%s] [] [\n%s]' % (pad, q(e.tag), attrs, ';\n'.join(em(k, ind + 1) for k in kids))
out = ['(** GENERATED by tools/gen_masterdocs.py from xml/adesmaster.xml: do not edit.',
       '    The element tree of xml/adesmaster.xml restricted to XSDTypes,',
       '    XSDElementTypes and PSVObservationFields; comments and (white space)',
       '    text nodes are left out. *)',
       'From Verif Require Import Xml.', '']
names = []
for n, e in enumerate(k for k in root if k.tag in ('XSDTypes', 'XSDElementTypes', 'PSVObservationFields')):
    nm = 'master_docs_%d' % n
    names.append(nm)
    out.append('(** /ades/%s *)' % e.tag)
    out.append('Definition %s : xml :=\n%s.\n' % (nm, em(e, 1)))
out.append('(** xml/adesmaster.xml *)')
out.append('Definition adesmaster_docs : xml := Elem $"ades" [] [] [%s].' % '; '.join(names))
open('/verif/rocq/theories/MasterDocs.v', 'w').write('\n'.join(out) + '\n')
