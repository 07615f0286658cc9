#!/usr/bin/env python3
"""Writes rocq/theories/TestData.v: the inputs and expected outputs of /repo/tests as Coq literals.
Only reads the data files as text (XML through the standard library), no project code is run."""
import xml.dom.minidom as md, json, os, re
I='/repo/tests/input/'; E='/repo/tests/expected/'
def s(t):
    out=[]; cur=''
    def flush():
        nonlocal cur
        if cur: out.append('$"%s"'%cur.replace('"','""')); cur=''
    for c in t:
        o=ord(c)
        if 32<=o<127: cur+=c
        else:
            if o>255: c='?'; cur+=c; continue
            flush(); out.append('["%03d"%%char]'%o)
    flush()
    return '('+' ++ '.join(out)+')' if len(out)!=1 else out[0] if out else '[]'
s0=s
def s(t): return '[]' if t=='' else s0(t)
def attrs(e): return '['+'; '.join('(%s, %s)'%(s(e.attributes.item(i).name),s(e.attributes.item(i).value)) for i in range(e.attributes.length))+']'
def tree(e):
    txt=''
    for k in e.childNodes:
        if k.nodeType in (k.TEXT_NODE,k.CDATA_SECTION_NODE): txt+=k.data
        else: break
    ks=[k for k in e.childNodes if k.nodeType==k.ELEMENT_NODE]
    return '(Elem %s %s %s [%s])'%(s(e.tagName),attrs(e),s(txt),';\n '.join(tree(k) for k in ks))
def node(e):
    if e.nodeType==e.ELEMENT_NODE: return '(NElem %s %s [%s])'%(s(e.tagName),attrs(e),';\n '.join(node(k) for k in e.childNodes))
    if e.nodeType in (e.TEXT_NODE,e.CDATA_SECTION_NODE): return '(NText %s)'%s(e.data)
    return 'NOther'
def j(v):
    if v is None: return 'JNull'
    if isinstance(v,str): return '(JStr %s)'%s(v)
    if isinstance(v,list): return '(JList [%s])'%';\n '.join(map(j,v))
    return '(JObj [%s])'%';\n '.join('(%s, %s)'%(s(k),j(x)) for k,x in v.items())
def nm(f): return 'f_'+re.sub(r'\W','_',f)
out=['(** The inputs and the expected outputs of the tests in /repo/tests, as literals.','    Written by tools/conform.py; the files are cited by name. *)','From Verif Require Import Json.','Local Open Scope list_scope.','']
for f in sorted(os.listdir(I)):
    p=I+f
    if f.endswith('.xml'):
        r=md.parse(p).documentElement
        out+=['(** tests/input/%s, as an element tree *)'%f,'Definition %s : xml :=\n %s.'%(nm(f),tree(r)),'']
        if f in('319.xml',): out+=['(** tests/input/%s, with its character data *)'%f,'Definition %s_nodes : xnode :=\n %s.'%(nm(f),node(r)),'']
    elif f.endswith('.json'):
        out+=['(** tests/input/%s *)'%f,'Definition %s : json :=\n %s.'%(nm(f),j(json.load(open(p)))),'']
    else:
        t=open(p,encoding='latin-1',newline='').read()
        ls=t.split('\n'); 
        out+=['(** tests/input/%s *)'%f,'Definition %s : str :=\n concat [%s].'%(nm(f),';\n  '.join(s(l+('\n' if i<len(ls)-1 else '')) for i,l in enumerate(ls) if l or i<len(ls)-1)),'']
for f in os.listdir(E):
    t=open(E+f,newline='').read(); ls=t.split('\n')
    out+=['(** tests/expected/%s *)'%f,'Definition %s_expected : str :=\n concat [%s].'%(nm(f),';\n  '.join(s(l+('\n' if i<len(ls)-1 else '')) for i,l in enumerate(ls) if l or i<len(ls)-1)),'']
src=open('/repo/tests/test_packUtil.py').read()
ns={}
for n in('provID_examples','comet_provID_examples','permID_examples'):
    d=eval(re.search(n+r' = (\{.*?\})',src,re.S).group(1))
    out+=['(** tests/test_packUtil.py %s *)'%n,'Definition %s : list (str * str) :=\n [%s].'%(n,';\n  '.join('(%s, %s)'%(s(k),s(v)) for k,v in d.items())),'']
src=open('/repo/tests/test_programCodesArray.py').read()
t=' '.join('%d %d'%(i,i) for i in range(10))+' '+re.search(r'R"""(.*?)"""',src,re.S).group(1)
w=t.split()
out+=['(** tests/test_programCodesArray.py program_code_mappings *)','Definition program_code_mappings : list (str * nat) :=\n [%s].'%';\n  '.join('(%s, %s%%nat)'%(s(w[i]),w[i+1]) for i in range(0,len(w),2)),'']
O='/repo/attic/old_tests/radar/'
def lines(t):
    ls=t.split('\n'); return ';\n  '.join(s(l+('\n' if i<len(ls)-1 else '')) for i,l in enumerate(ls) if l or i<len(ls)-1)
for f in ('a4179_radar.mpc','a4179_radar.psv'):
    out+=['(** attic/old_tests/radar/%s *)'%f,'Definition %s : str :=\n concat [%s].'%(nm(f),lines(open(O+f,encoding='latin-1',newline='').read())),'']
out+=['(** attic/old_tests/radar/a4179_radar.xml, as an element tree *)','Definition f_a4179_radar_xml : xml :=\n %s.'%tree(md.parse(O+'a4179_radar.xml').documentElement),'']
open('/verif/rocq/theories/TestData.v','w').write('\n'.join(out))
