#!/usr/bin/env python3
"""Write rocq/theories/Prebuilt.v: the entries of the prebuilt directories."""
import os
P = '/repo/gen_repo/impl/prebuilt/'
o = '''(** The entries of /repo/gen_repo/impl/prebuilt/pol and /repo/gen_repo/impl/prebuilt/unpol
    (generated from the listings; the contents of the files are in [Src]). *)
From Coq Require Import List.
From Verif Require Import Bytes.
Import ListNotations.
'''
for d in ('pol', 'unpol'):
  l = sorted(os.listdir(P + d))
  o += 'Definition dir_%s : list bstr := [\n  %s]%%b.\n' % (d, ';\n  '.join('"%s"' % x for x in l))
open(os.path.join(os.path.dirname(__file__), '../rocq/theories/Prebuilt.v'), 'w').write(o)
