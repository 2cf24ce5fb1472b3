#!/usr/bin/env python3
"""Generates rocq/theories/LocaleAllNN.v and LocaleAll.v: every locale of /repo/internal/data (those of LocaleData.v are reused)."""
import re, os, glob
R='/repo/internal/data/'
OUT='/verif/rocq/theories/'
DONE=['en','en-GB','es','de','fi','zh','yue','fr']
def q(s): return 'lit "%s"' % s.replace('"','""')
STR=re.compile(r'"((?:[^"\\]|\\.)*)"|`([^`]*)`')
def unq(m):
    if m.group(2) is not None: return m.group(2)
    assert '\\' not in m.group(1), m.group(0)
    return m.group(1)
def strs(t): return [unq(m) for m in STR.finditer(t)]
def field(b,name):
    m=re.search(r'\n\t\t'+name+r':\s*(.*)',b)
    return m.group(1) if m else None
def multi(b,name):
    m=re.search(r'\n\t\t'+name+r':\s*[^\n]*\{\n(.*?)\n\t\t\},',b,re.S)
    return m.group(1).split('\n') if m else []
def lst(xs,ind='    '): return '[' + (';\n'+ind).join(xs) + ']'
def locales():
    "(file, locale name, variable, parent variable or None, first line, last line, text of the literal), in source order"
    cases=dict((v,n) for n,v in re.findall(r'case "([^"]+)":\n\t\treturn &(\w+)_Locale, true',open(R+'00-locale-data.go').read()))
    out=[]
    for f in sorted(glob.glob(R+'*.go')):
        base=os.path.basename(f)
        if base[0]=='0': continue
        src=open(f).read()
        for m in re.finditer(r'\t(\w+)_Locale = merge\((?:nil|&(\w+)_Locale), LocaleData\{',src):
            i=m.start(); j=src.index('\n\t})',i)
            out.append((base,cases.pop(m.group(1)),m.group(1),m.group(2),src[:i].count('\n')+1,src[:j].count('\n')+2,src[i:j]))
    assert not cases, cases
    return out
def body(name,b,pats):
    def repl(lines):
        o=[]
        for l in lines:
            ss=strs(l); assert len(ss)==2,l
            pats.append(ss[0]); o.append('(rx %s, %s)'%(q(ss[0])[4:],q(ss[1])))
        return o
    def rx(v):
        if v is None: return 'None'
        pats.append(strs(v)[0]); return 'Some (rx %s)'%q(strs(v)[0])[4:]
    g=lambda k: field(b,k)
    one=lambda k: (strs(g(k)) or [''])[0] if g(k) else ''
    assert one('Name')==name,(name,one('Name'))
    tr=[(lambda ss:'(%s, [%s])'%(q(ss[0]),'; '.join(q(x) for x in ss[1:])))(strs(l)) for l in multi(b,'Translations')]
    rt=[(lambda ss:'(%s, %s)'%(q(ss[0]),q(ss[1])))(strs(l)) for l in multi(b,'RelativeType')]
    return '''{| ld_name := %s; ld_order := %s; ld_nospacing := %s; ld_splitter := %s;
    ld_charset := runes (%s);
    ld_abbr := [%s];
    ld_simpl := %s;
    ld_trans := %s;
    ld_reltype := %s;
    ld_relrx := %s;
    ld_rx := %s;
    ld_rx_exact := %s;
    ld_known := %s |}''' % (q(name),q(one('DateOrder')),g('NoWordSpacing') and 'true' or 'false',
      (g('SentenceSplitterGroup') or '0,')[:-1], q(one('Charset')), '; '.join(q(x) for x in (strs(g('Abbreviations')) if g('Abbreviations') else [])),
      lst(repl(multi(b,'Simplifications'))), lst(tr), lst(rt), lst(repl(multi(b,'RelativeTypeRegexes'))),
      rx(g('RxCombined')), rx(g('RxExactCombined')), lst([q(x) for x in (strs(g('KnownWords')) if g('KnownWords') else [])]))
L=locales()
# chunks of whole files
chunks=[]; cur=[]; size=0
for base in sorted(set(l[0] for l in L)):
    ls=[l for l in L if l[0]==base]
    n=sum(len(l[6]) for l in ls)
    if size+n>110000 and cur: chunks.append(cur); cur=[]; size=0
    cur+=ls; size+=n
chunks.append(cur)
for f in glob.glob(OUT+'LocaleAll*.v'): os.remove(f)
names=[]
for k,ch in enumerate(chunks):
    mod='LocaleAll%02d'%(k+1); names.append(mod); pats=[]
    out=['(** Generated by tools/gen_all_locales.py from /repo/internal/data. Do not edit. *)','From Verif Require Import GoBase SMap Regex Language LocaleData.','']
    for base,name,var,parent,l0,l1,b in ch:
        if name in DONE: continue
        out.append('(** %s:%d-%d *)'%(base,l0,l1))
        if parent is None: out.append('Definition loc_%s : locale := Eval vm_compute in\n  %s.\n'%(var,body(name,b,pats)))
        else:
            out.append('Definition own_%s : locale := Eval vm_compute in\n  %s.'%(var,body(name,b,pats)))
            out.append('Definition loc_%s : locale := merge loc_%s own_%s.\n'%(var,parent,var))
    pats=sorted(set(pats))
    out.append('''(** all patterns above are accepted by the syntax parser *)
Example patterns_ok : forallb (fun s => match parse_regex s with Some _ => true | None => false end)
  %s = true.
Proof. vm_compute. reflexivity. Qed.
'''%lst([q(x) for x in pats],'  '))
    out.append('Definition table_%02d : list (str * locale) :=\n  [%s].\n'%(k+1,';\n   '.join('(%s, loc_%s)'%(q(name),var) for base,name,var,parent,l0,l1,b in ch)))
    out.append('(** each region with its language *)\nDefinition regions_%02d : list (str * str) :=\n  [%s].\n'%(k+1,';\n   '.join('(%s, %s)'%(q(name),q([x[1] for x in L if x[2]==parent][0])) for base,name,var,parent,l0,l1,b in ch if parent)))
    open(OUT+mod+'.v','w').write('\n'.join(out))
open(OUT+'LocaleAll.v','w').write('''(** Generated by tools/gen_all_locales.py from /repo/internal/data. Do not edit. *)
From Verif Require Import GoBase SMap Regex Language LocaleData %s.

(** GetLocaleData (00-locale-data.go:82-1099): all locales *)
Definition full_table : smap locale :=
  %s.
Definition full_regions : list (str * str) :=
  %s.
Definition full_db : langdb :=
  {| db_get := mget full_table; db_langs := language_order; db_order := mget_or 0 locale_order |}.
'''%(' '.join(names),' ++ '.join('table_%02d'%(i+1) for i in range(len(names))),' ++ '.join('regions_%02d'%(i+1) for i in range(len(names)))))
print(len(L),len(chunks))
