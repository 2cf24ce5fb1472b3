#!/usr/bin/env python3
"""Runs the model (vm_compute) on the repository's own test tables for the languages in LocaleData.v and prints differences.
Not part of the build; a check of the model's fidelity. Usage: validate.py > /tmp/val.v; coqc -Q theories Verif /tmp/val.v"""
import re
R='/repo/'
src=open(R+'parser_test.go').read()
rows=[]  # (label, cfg, types, text, expected, period or None)
def q(s): return '(lit "%s")'%s.replace('"','""')
def gos(s): return re.sub(r'\\u([0-9a-fA-F]{4})',lambda m:chr(int(m.group(1),16)),s).replace('\\n','\n').replace('\\t','\t')
def T(a):
    a=[x.strip() for x in a.split(',') if x.strip()]
    a=[eval(x) for x in a]; a+= [0]*(7-len(a))
    return '(mk_date %d %d %d %d %d %d %d utc)'%(a[0],a[1],a[2],a[3],a[4],a[5],a[6]*1000)
STR=r'"((?:[^"\\]|\\.)*)"'
# 1. TestParser_Parse
body=src[src.index('func TestParser_Parse('):src.index('func TestParser_Parse_withLanguage')]
sec=''
for l in body.split('\n'):
    l=l.strip()
    if l.startswith('//'): sec=l
    m=re.match(r'\{'+STR+r', tt\(([^)]*)\)\},',l)
    if m and re.search('English|French|Spanish|German|Finnish|Chinese|NO-SPACE|No space|TIMESTAMP|Timestamp|RELATIVE|FORMAT',sec+'') or (m and not re.search('dates',sec)):
        rows.append((sec,'(cfgn (mk_date 2012 11 13 0 0 0 0 utc))','[]',gos(m.group(1)),T(m.group(2)),'PDay'))
body=src[src.index('func TestParser_Parse_hasPreferredDateSource'):src.index('func TestParser_Parse_hasPreferredDayOfMonth')]
for m in re.finditer(r'ts\((past|future|current), '+STR+r', tt\(([^)]*)\)(?:, tt\(([^)]*)\))?\)',body):
    base=T(m.group(4) or '2015, 2, 15, 15, 30')
    rows.append(('src','(cfgs %s %d)'%(base,{'past':1,'future':2,'current':0}[m.group(1)]),'[]',m.group(2),T(m.group(3)),None))
body=src[src.index('func TestParser_Parse_hasPreferredDayOfMonth'):src.index('func TestParser_Parse_returnTimeAsPeriod')]
for m in re.finditer(r'\{(last|first|current), '+STR+r', tt\(([^)]*)\), tt\(([^)]*)\)\}',body):
    rows.append(('dom','(cfgd %s %d 0)'%(T(m.group(3)),{'first':1,'last':2,'current':0}[m.group(1)]),'[]',m.group(2),T(m.group(4)),None))
body=src[src.index('func TestParser_Parse_datesWithNoDay'):src.index('func TestParser_Parse_dateStepBack')]
for m in re.finditer(r'\{'+STR+r', dps\.(\w+), dps\.(\w+), tt\(([^)]*)\), tt\(([^)]*)\)\}',body):
    rows.append(('nodm','(cfgd %s %d %d)'%(T(m.group(4)),{'First':1,'Last':2,'Current':0}[m.group(2)],{'FirstMonth':1,'LastMonth':2,'CurrentMonth':0}[m.group(3)]),'[]',m.group(1),T(m.group(5)),'PYear'))
body=src[src.index('func TestParser_Parse_returnTimeAsPeriod'):src.index('func TestParser_Parse_checkPeriod')]
for m in re.finditer(r'ts\('+STR+r', date\.(\w+), tt\(([^)]*)\)(?:, tt\(([^)]*)\))?\)',body):
    base=T(m.group(4)) if m.group(4) else 'zero_time'
    rows.append(('tp','(cfgp %s)'%base,'[]',m.group(1),T(m.group(3)),'P'+m.group(2)))
# relative
src=open(R+'parser-relative_test.go').read()
body=src[src.index('func TestParser_Parse_relative_pastAnd'):src.index('func TestParser_Parse_relative_invalid')]
sec=''
for l in body.split('\n'):
    l=l.strip()
    if l.startswith('//'): sec=l
    m=re.match(r'\{'+STR+r', (nil|pfpDiff\{([^}]*)\}), (?:date\.)?(\w+)\},',l)
    if m and re.search('English|French|Spanish|German|Finnish|Chinese|Fix',sec):
        d=dict((k,int(v)) for k,v in re.findall(r'"(\w+)": (-?\d+)',m.group(3) or ''))
        g=lambda k:d.get(k,0)
        e='(add (add_date relnow (%d) (%d) (%d)) (%d))'%(g('year'),g('month'),g('day')+7*g('week'),(g('hour')*3600+g('minute')*60+g('second'))*10**9)
        rows.append((sec,'cfgr','[2]',gos(m.group(1)),e,'P'+m.group(4)))
print('''From Verif Require Import GoBase SMap Civil GoTime Setting Env Concrete LocaleData Language Parser Search.
Definition cfgn (t : time) := with_unow uconfig0 t.
Definition cfgx (t : time) (src pd pm : Z) (tp pr : bool) : uconfig :=
  {| u_locales := []; u_languages := []; u_region := []; u_try_prev := false; u_given_order := false;
     u_deflang := []; u_order := None; u_now := t; u_tz := None; u_pday := pd; u_pmonth := pm; u_src := src;
     u_strict := false; u_required := []; u_skip := []; u_timeperiod := tp; u_preserve := pr |}.
Definition cfgs t s := cfgx t s 0 0 false false.
Definition cfgd t d m := cfgx t 0 d m false false.
Definition cfgp t := cfgx t 0 0 0 true false.
Definition relnow := mk_date 2014 9 1 10 30 0 0 utc.
Definition cfgr := cfgx relnow 0 0 0 true true.
Definition show (d : date) := (year (d_time d), month (d_time d), day (d_time d), hour (d_time d), minute (d_time d), second (d_time d), t_nsec (d_time d), d_period d).
Definition go (n : nat) (c : uconfig) (ty : list Z) (s : str) (e : time) (p : option period) :=
  match parse env0 db0 None (new_parser ty) c s [] with
  | (_, Ok (d, er)) => if (instant (d_time d) =? instant e) && negb (date_is_zero d) && match p with Some p => period_eqb p (d_period d) | None => true end then [] else [(n, Some (show d, er, d_locale d))]
  | _ => [(n, None)] end.
''')
chunk=40
for i in range(0,len(rows),chunk):
    print('Eval vm_compute in (%s).'%' ++ \n '.join('go %d%%nat %s %s %s %s %s'%(j,r[1],r[2],q(r[3]),r[4],'(Some %s)'%r[5] if r[5] else 'None') for j,r in enumerate(rows[i:i+chunk],i)))
open('/tmp/rows.txt','w').write('\n'.join('%d %r'%(i,r) for i,r in enumerate(rows)))
