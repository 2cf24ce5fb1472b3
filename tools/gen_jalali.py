#!/usr/bin/env python3
"""Generates rocq/theories/JalaliData.v from /repo/internal/parser/jalali/translate.go and hijri/parser.go"""
import re
src=open('/repo/internal/parser/jalali/translate.go').read()
h=open('/repo/internal/parser/hijri/parser.go').read()
def block(name):
    m=re.search(r'var '+name+r' = .*?\n\}\n',src,re.S) if True else None
    return m.group(0)
def pairs(b): # {"X", []string{"..",".."}}
    out=[]
    for m in re.finditer(r'\{("[^"]*"|\d+), \[\]string\{([^}]*)\}\}',b):
        out.append((m.group(1).strip('"'),re.findall(r'"([^"]*)"',m.group(2))))
    return out
def q(s): return '"'+s+'"'
def L(l): return '['+'; '.join(q(x) for x in l)+']'
def grab(name):
    i=src.index('var '+name); return src[i:src.index('\n}\n',i)]
out='''(** Generated by tools/gen_jalali.py from internal/parser/jalali/translate.go:11-113 and internal/parser/hijri/parser.go:18-21 *)
From Verif Require Import GoBase Regex.
Local Open Scope string_scope.
'''
mn=pairs(grab('monthNames')); wn=pairs(grab('weekdayNames')); dn=pairs(grab('dayNumbers'))
assert len(mn)==12 and len(wn)==7 and len(dn)==32,(len(mn),len(wn),len(dn))
out+='Definition month_names : list (string * list string) :=\n  ['+';\n   '.join(f'({q(a)}, {L(b)})' for a,b in mn)+'].\n'
mv=re.findall(r'"(\w+)":\s+(\d+)',grab('monthNameValues'))
assert len(mv)==12
out+='Definition month_name_values : list (string * Z) :=\n  ['+'; '.join(f'({q(a)}, {b})' for a,b in mv)+'].\n'
out+='Definition weekday_tr : list (string * list string) :=\n  ['+';\n   '.join(f'({q(a)}, {L(b)})' for a,b in wn)+'].\n'
out+='Definition day_numbers : list (Z * list string) :=\n  ['+';\n   '.join(f'({a}, {L(b)})' for a,b in dn)+'].\n'
for n in ['rxHourPattern','rxMinutePattern','rxSecondPattern','rxColonPattern','rxOrdinalPattern','rxNonDigit']:
    p=re.search(n+r'\s*= \w+\.MustCompile\(`([^`]*)`\)',src).group(1)
    out+=f'Definition {n} : regex := Eval vm_compute in rxc {q(p)}.\n'
hw=re.search(r's = strings.ReplaceAll\(s, "([^"]*)", ""\)',src).group(1)
out+='Definition hour_word : string := '+q(hw)+'.\n'
tc=re.findall(r'"(am|pm)": "([^"]*)"',h); assert len(tc)==2
out+='(** timeConventions of internal/parser/hijri: (latin, arabic) *)\nDefinition time_conventions : list (string * string) := ['+'; '.join(f'({q(a)}, {q(b)})' for a,b in tc)+'].\n'
open('/verif/rocq/theories/JalaliData.v','w').write(out)
