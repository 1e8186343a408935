#!/usr/bin/env python3
"""Regenerates rocq/theories/AssetData.v from /repo/assets/test (read as data)."""
import os
src='/repo/assets/test'
out=['(** Generated by tools/gen_assets.py from /repo/assets/test: the bytes of the',
     '    golden files. *)','From Coq Require Import ZArith List.','Import ListNotations.','Open Scope Z_scope.','']
for f in sorted(os.listdir(src)):
    b=open(os.path.join(src,f),'rb').read()
    name='asset_'+f.replace('.','_')
    rows=[]
    for i in range(0,len(b),20):
        rows.append('; '.join(str(x) for x in b[i:i+20]))
    out.append('(** %s *)'%f)
    out.append('Definition %s : list Z :=\n  [ %s ].\n'%(name,';\n    '.join(rows)))
open('/verif/rocq/theories/AssetData.v','w').write('\n'.join(out))
