#!/usr/bin/env python3
"""Transcribes the literals of quadrature_lib.cpp (Gauss and tanh-sinh tables) into M_GaussData.v and M_TanhSinhData.v, digit by digit."""
import re
t=open('/repo/cpp/qugar/quadrature_lib.cpp').read()
i=t.index('TanhSinh::get_quad_data')
pat=r'(\d)\.(\d+)(?:e([+-]\d+))?(?=[,\s])'
def conv(m):
    a,b,e=m.groups(); return f"({int(a+b)},{len(b)-int(e or 0)})"
for name,src,fn,lines in (('gauss',t[:i],'M_GaussData','34-5087'),('tanh_sinh',t[i:],'M_TanhSinhData','5095-10148')):
    l=[conv(m) for m in re.finditer(pat,src[src.index('data{'):])]
    assert len(l)==10100
    with open(f'/verif/rocq/theories/{fn}.v','w') as f:
        f.write(f"(** The {name} table of cpp/qugar/quadrature_lib.cpp, lines {lines}, generated by tools/gentables.py: the literal d.ddd e-x with f digits after the\n    point is written (dddd, f + x), i.e. dddd / 10^(f+x).  One definition for each number of points. *)\nFrom Coq Require Import ZArith List.\nImport ListNotations.\nLocal Open Scope Z_scope.\n")
        for n in range(1,101):
            o=n*(n-1)
            f.write(f"Definition {name}_{n} : list (Z * Z) := [\n  "+";\n  ".join("; ".join(l[o+2*k:o+2*k+2]) for k in range(n))+"].\n")
        f.write(f"Definition {name}_literals : list (Z * Z) := concat [\n  "+"; ".join(f"{name}_{n}" for n in range(1,101))+"].\n")
# Hints for the proof: |2x - 1| and w in units of 2^-64, for the first half of the points (and the middle one).
U=1<<64
def num(s):
    m,e=s.strip('()').split(','); return int(m),int(e)
i=t.index('TanhSinh::get_quad_data')
with open('/verif/rocq/theories/L_GaussHints.v','w') as f:
    f.write("(** Generated by tools/gentables.py: approximations (verified in L_Gauss.v) of |2x - 1| and w in units of 2^-64 for the points of the Gauss rules up to\n    the middle. *)\nFrom Coq Require Import ZArith List.\nImport ListNotations.\nLocal Open Scope Z_scope.\n")
    src=t[:i]; l=[num(conv(m)) for m in re.finditer(pat,src[src.index('data{'):])]
    for n in range(1,101):
        o=n*(n-1); r=[]
        for k in range((n+1)//2):
            (mx,ex),(mw,ew)=l[o+2*k],l[o+2*k+1]
            r.append(f"({(10**ex-2*mx)*U//10**ex},{mw*U//10**ew})")
        f.write(f"Definition hint_{n} : list (Z * Z) := ["+"; ".join(r)+"].\n")
    f.write("Definition gauss_hints : list (list (Z * Z)) := [\n  "+"; ".join(f"hint_{n}" for n in range(1,101))+"].\n")
    f.write("Definition pow10 : list Z := ["+"; ".join(str(10**k) for k in range(71))+"].\n")
