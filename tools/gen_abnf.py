#!/usr/bin/env python3
"""Writes rocq/theories/AbnfText.v: the bytes of /repo/src/grammar.abnf as a Coq string."""
import os
src = open('/repo/src/grammar.abnf').read()
assert all(ord(c) < 128 for c in src)
here = os.path.dirname(os.path.abspath(__file__))
with open(os.path.join(here, '..', 'rocq', 'theories', 'AbnfText.v'), 'w') as f:
    f.write('(** The text of /repo/src/grammar.abnf, byte for byte (generated by tools/gen_abnf.py; quotes doubled). *)\n')
    f.write('From Verif Require Import Base.\n\n')
    f.write('Definition grammar_abnf : bytes := bs "' + src.replace('"', '""') + '".\n')
