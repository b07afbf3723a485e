#!/usr/bin/env python3
"""Regenerates rocq/theories/Assumptions.v: Print Assumptions of every property theorem."""
import re,os
root=os.path.dirname(os.path.dirname(os.path.abspath(__file__)))+'/rocq/'
order=[l.strip() for l in open(root+'_CoqProject') if l.startswith('theories/') and 'Assumptions' not in l]
names=[];mods=[]
for f in order:
    m=os.path.basename(f)[:-2]
    t=re.findall(r'^(?:Theorem|Corollary)\s+(C\d\d\w*)',open(root+f).read(),re.M)
    if t: mods.append(m); names+=[f'@{m}.{x}' for x in t]
body='' .join(f'  let _ := {n} in\n' for n in names)
open(root+'theories/Assumptions.v','w').write("""(** Every property theorem is closed under the global context.  [all_theorems] mentions each of
    them, so the assumptions printed for it are those of all of them (one command instead of one
    per theorem, which would walk the shared proofs again each time).
    Generated by tools/assumptions.py; nothing of /repo is modelled here. *)
From Verif Require """+' '.join(mods)+""".
Definition all_theorems : unit :=
"""+body+"""  tt.
Print Assumptions all_theorems.
""")
