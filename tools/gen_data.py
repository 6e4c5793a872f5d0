#!/usr/bin/env python3
"""Generate rocq/theories/BundledData.v from the CSV files the default configuration names."""
import csv, re
from decimal import Decimal
R='/repo/mimosa/'
FILES=[('economics','inputdata/regionalparams/economics.csv'),('mac','inputdata/regionalparams/mac.csv'),
 ('coacch','inputdata/regionalparams/COACCH.csv'),('mortality','inputdata/regionalparams/mortality.csv'),
 ('image_coacch','inputdata/regions/IMAGE26_COACCH.csv'),('image_adrice2010','inputdata/regions/IMAGE26_ADRICE2010.csv'),
 ('image_adrice2012','inputdata/regions/IMAGE26_ADRICE2012.csv'),('image_ssp','inputdata/data/data_IMAGE_SSP.csv')]
NUM=re.compile(r'^[-+]?(\d+\.?\d*|\.\d+)([eE][-+]?\d+)?$'); INT=re.compile(r'^[-+]?\d+$')
def lit(v):
    d=Decimal(v); s,dig,e=d.as_tuple(); n=int(''.join(map(str,dig)))*(-1 if s else 1)
    if e>0: n*=10**e; e=0
    return f'num ({n}) {10**-e}' if n<0 else f'num {n} {10**-e}'
def st(s): return '"'+s.replace('"','""')+'"'
out=['''(** The CSV files named by the default configuration, as pd.read_csv returns them.  Generated by tools/gen_data.py
    from /repo/mimosa/inputdata (decimal text is read as the exact number; a column is text if a cell of it is
    not a number; an empty cell is nan; an empty column name is what pandas calls it). *)
From Verif Require Import PyBase DataStore.
From Coq Require Import QArith.
Import ListNotations.
Open Scope string_scope.
Open Scope list_scope.

Definition num (n : Z) (d : positive) : pyval := VFloat (FFin (n # d)).
Definition txt (x : string) : pyval := VStr x.
Definition na : pyval := VFloat FNaN.
''']
for name,fn in FILES:
    rows=list(csv.reader(open(R+fn))); head=rows[0]; body=rows[1:]
    assert all(len(r)==len(head) for r in body),fn
    head=[h if h else f'Unnamed: {i}' for i,h in enumerate(head)]; assert len(set(head))==len(head)
    kind=[]
    for i in range(len(head)):
        col=[r[i] for r in body]; full=[c for c in col if c!='']
        if all(NUM.match(c) for c in full): kind.append('int' if len(full)==len(col) and all(INT.match(c) for c in full) else 'num')
        else: kind.append('text')
    def cell(k,c):
        if c=='': return 'na'
        if k=='text': return 'txt '+st(c)
        return f'VInt ({c})' if k=='int' else lit(c)
    out.append(f'(** {fn} *)\nDefinition {name} : table := {{|\n  t_columns := ['+'; '.join(st(h) for h in head)+'];\n  t_rows := [')
    out.append(';\n'.join('    ['+'; '.join(cell(k,c) for k,c in zip(kind,r))+']' for r in body)+'] |}.\n')
out.append('(** pd.read_csv on the bundled files *)\nDefinition bundled_files : list (string * table) :=\n  ['+';\n   '.join(f'({st(fn)}, {n})' for n,fn in FILES)+'].\n'
 'Definition bundled (file : string) : result table :=\n  match find (fun x => String.eqb (fst x) file) bundled_files with Some (_, t) => Ok t | None => Err FileNotFoundError end.\n')
open('/verif/rocq/theories/BundledData.v','w').write('\n'.join(out))
