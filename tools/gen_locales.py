#!/usr/bin/env python3
"""Generates rocq/theories/LocaleData.v from /repo/internal/data/*.go (a selection of locales, and all orders)."""
import re, sys
R='/repo/internal/data/'
SEL=[('en','en'),('en','en-GB'),('es','es'),('de','de'),('fi','fi'),('zh','zh'),('yue','yue'),('fr','fr')]

def q(s): return 'lit "%s"' % s.replace('"','""')
def strings(body): return [a if a is not None and a!='' or b is None else b for a,b in []]
STR=re.compile(r'"((?:[^"\\]|\\.)*)"|`([^`]*)`')
def unq(m):
    if m.group(2) is not None: return m.group(2)
    assert '\\' not in m.group(1), m.group(0)
    return m.group(1)
def strs(t): return [unq(m) for m in STR.finditer(t)]

def block(src, var):
    i=src.index(var+'_Locale = merge(')
    j=src.index('\n\t})',i)
    return src[i:j], src[:i].count('\n')+1, src[:j].count('\n')+1
def field(b,name):
    m=re.search(r'\n\t\t'+name+r':\s*(.*)',b)
    return m.group(1) if m else None
def multi(b,name):
    m=re.search(r'\n\t\t'+name+r':\s*[^\n]*\{\n(.*?)\n\t\t\},',b,re.S)
    return m.group(1).split('\n') if m else []
PATS=[]
def repl(lines):
    out=[]
    for l in lines:
        ss=strs(l); assert len(ss)==2,l
        PATS.append(ss[0])
        out.append('(rx %s, %s)'%(q(ss[0])[4:],q(ss[1])))
    return out
def lst(xs,ind='    '): return '[' + (';\n'+ind).join(xs) + ']'
def rx(v):
    if v is None: return 'None'
    PATS.append(strs(v)[0])
    return 'Some (rx %s)'%q(strs(v)[0])[4:]
out=['(** Generated by tools/gen_locales.py from /repo/internal/data. Do not edit. *)',
 'From Verif Require Import GoBase SMap Regex Language.','']
for f,name in SEL:
    src=open(R+f.lower()+'.go').read(); var=name.replace('-','_')
    b,l0,l1=block(src,var)
    parent=re.search(r'merge\((\S+),',b).group(1)
    order=field(b,'DateOrder'); order=strs(order)[0] if order else ''
    known=field(b,'KnownWords'); known=strs(known) if known else []
    abbr=field(b,'Abbreviations'); abbr=strs(abbr) if abbr else []
    cs=field(b,'Charset'); cs=strs(cs)[0] if cs else ''
    tr=[]
    for l in multi(b,'Translations'):
        ss=strs(l); tr.append('(%s, [%s])'%(q(ss[0]),'; '.join(q(x) for x in ss[1:])))
    rt=[]
    for l in multi(b,'RelativeType'):
        ss=strs(l); rt.append('(%s, %s)'%(q(ss[0]),q(ss[1])))
    body='''{| ld_name := %s; ld_order := %s; ld_nospacing := %s; ld_splitter := %s;
    ld_charset := runes (%s);
    ld_abbr := [%s];
    ld_simpl := %s;
    ld_trans := %s;
    ld_reltype := %s;
    ld_relrx := %s;
    ld_rx := %s;
    ld_rx_exact := %s;
    ld_known := %s |}''' % (q(name),q(order),field(b,'NoWordSpacing') and 'true' or 'false',
      (field(b,'SentenceSplitterGroup') or '0,')[:-1], q(cs), '; '.join(q(x) for x in abbr),
      lst(repl(multi(b,'Simplifications'))), lst(tr), lst(rt), lst(repl(multi(b,'RelativeTypeRegexes'))),
      rx(field(b,'RxCombined')), rx(field(b,'RxExactCombined')), lst([q(x) for x in known]))
    out.append('(** %s.go:%d-%d *)'%(f.lower(),l0,l1))
    if parent=='nil': out.append('Definition loc_%s : locale := Eval vm_compute in\n  %s.\n'%(var,body))
    else: out.append('Definition loc_%s : locale := Eval vm_compute in\n  merge loc_%s\n  %s.\n'%(var,parent[1:-7],body))
out.append('''(** all patterns above are accepted by the syntax parser *)
Example patterns_ok : forallb (fun s => match parse_regex s with Some _ => true | None => false end)
  %s = true.
Proof. vm_compute. reflexivity. Qed.
'''%lst([q(x) for x in PATS],'  '))
lo=dict((a,int(b)) for a,b in re.findall(r'"([^"]+)":\s*(\d+)',open(R+'01-language-order.go').read()))
langs=sorted(lo,key=lambda x:lo[x])
out.append('(** LanguageOrder (01-language-order.go), by position *)\nDefinition language_order : list str := Eval vm_compute in\n  %s.\n'%lst([q(x) for x in langs],'  '))
oo=[(a,int(b)) for a,b in re.findall(r'"([^"]+)":\s*(\d+)',open(R+'04-locale-order.go').read())]
out.append('(** LocaleOrder (04-locale-order.go) *)\nDefinition locale_order : smap Z := Eval vm_compute in\n  %s.\n'%lst(['(%s, %d)'%(q(a),b) for a,b in oo],'  '))
out.append('''(** GetLocaleData restricted to the locales above *)
Definition loc_table : smap locale :=
  [%s].
Definition db0 : langdb :=
  {| db_get := mget loc_table; db_langs := language_order; db_order := mget_or 0 locale_order |}.
''' % '; '.join('(lit "%s", loc_%s)'%(n,n.replace('-','_')) for _,n in SEL))
open('/verif/rocq/theories/LocaleData.v','w').write('\n'.join(out))
