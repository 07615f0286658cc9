#!/usr/bin/env python3
"""Writes rocq/theories/XsdFiles.v: the element trees of /repo/xsd/submit.xsd and
/repo/xsd/general.xsd (names with the prefix xsd:)."""
import xml.etree.ElementTree as T
NS = '{http://www.w3.org/2001/XMLSchema}'
def q(s):
    assert all(32 <= ord(c) < 127 for c in s), s
    return '$"' + s.replace('"', '""') + '"'
def em(e, ind):
    assert not (e.text or '').strip(), (e.tag, e.text)
    assert e.tag.startswith(NS), e.tag
    attrs = '; '.join('(%s, %s)' % (q(k), q(v)) for k, v in e.attrib.items())
    kids = list(e)
    for k in e: assert not (k.tail or '').strip()
    tag = 'xsd:' + e.tag[len(NS):]
    pad = ' ' * ind
    if not kids:
        return '%sElem %s [%s] [] []' % (pad, q(tag), attrs)
    return '%sElem %s [%s] [] [\n%s]' % (pad, q(tag), attrs, ';\n'.join(em(k, ind + 1) for k in kids))
out = ['(** GENERATED by tools/gen_xsd.py from xsd/submit.xsd and xsd/general.xsd: do not edit. *)',
       'From Verif Require Import Xml.', '']
for n in ('submit', 'general'):
    out.append('(** xsd/%s.xsd *)' % n)
    out.append('Definition %s_xsd : xml :=\n%s.\n' % (n, em(T.parse('/repo/xsd/%s.xsd' % n).getroot(), 1)))
open('/verif/rocq/theories/XsdFiles.v', 'w').write('\n'.join(out))
