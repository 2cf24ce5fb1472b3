#!/usr/bin/env python3
"""Generates rocq/theories/TimezoneData.v from /repo/internal/timezone/timezones.go"""
import re
src=re.sub(r'^\s*//.*$','',open('/repo/internal/timezone/timezones.go').read(),flags=re.M)
blocks=re.findall(r'Timezones: map\[string\]int\{(.*?)\n\t\t\}',src,re.S)
assert len(blocks)==2
def ents(b): return re.findall(r'`([^`]*)`:\s*(-?\d+)',b)
alts=re.findall(r'regexp\.MustCompile\(`([^`]*)`\):\s*(?:`([^`]*)`|"([^"]*)")',src)
pats=re.findall(r'RegexPatterns: \[\]string\{\s*\(?`([^`]*)`',src)
assert len(alts)==8 and len(pats)==2,(alts,pats)
def q(s):
    assert '"' not in s
    return '"'+s+'"'
out='''(** Generated by tools/gen_tz.py from internal/timezone/timezones.go:17-481: timezoneInfoList *)
From Verif Require Import GoBase.
Local Open Scope string_scope.
'''
for i,b in enumerate(blocks,1):
    e=ents(b)
    assert len(set(n for n,_ in e))==len(e)
    out+=f'Definition tz_group{i} : list (string * Z) :=\n  ['+';\n   '.join(f'({q(n)}, {o})' for n,o in e)+'].\n'
    pre,post=pats[i-1].split('%s')
    out+=f'Definition tz_pattern{i} : string * string := ({q(pre)}, {q(post)}).\n'
out+='(** AlternativePatterns of the first group: (regular expression, replacement) *)\nDefinition tz_alts : list (string * string) :=\n  ['+';\n   '.join(f'({q(a)}, {q(b or c)})' for a,b,c in alts)+'].\n'
open('/verif/rocq/theories/TimezoneData.v','w').write(out)
print([len(ents(b)) for b in blocks])
