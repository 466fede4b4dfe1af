#!/usr/bin/env python3
"""Writes rocq/theories/RustText.v and RustTestText.v: the bytes of the Rust files of /repo/src and /repo/tests as Coq
strings."""
import os
FILES = ["utils", "grandfathered", "lib", "normal/mod", "normal/extension", "normal/variant", "normal/private_use",
         "normal/script", "normal/region", "normal/language/mod", "normal/language/extlang", "normal/language/primary",
         "private_use", "grammar"]
PIECE = 8000   # a longer literal overflows Coq's stack
TESTS = ["extension", "langtag", "language", "lib", "privateuse", "variant"]

def write(f, path, ident):
    src = open('/repo/%s' % path).read()
    pieces = ['']
    for line in src.splitlines(keepends=True):
        if len((pieces[-1] + line).encode()) > PIECE: pieces.append('')
        pieces[-1] += line
    assert ''.join(pieces) == src
    f.write('\n(** %s *)\n' % path)
    for i, p in enumerate(pieces):
        f.write('Definition %s_%d : text := "%s"%%text.\n' % (ident, i, p.replace('"', '""')))
    f.write('Definition %s : list byte := %s.\n' % (ident, ' ++ '.join('text_bytes %s_%d' % (ident, i) for i in range(len(pieces)))))

here = os.path.dirname(os.path.abspath(__file__))
with open(os.path.join(here, '..', 'rocq', 'theories', 'RustText.v'), 'w') as f:
    f.write('''(** The text of the Rust files of /repo/src, byte for byte (generated by tools/gen_source.py; quotes doubled, long
    files in pieces). *)
From Coq Require Import Init.Byte List.

(** String literals as lists of bytes. *)
Inductive text := Text (l : list byte).
Definition text_bytes (t : text) : list byte := match t with Text l => l end.
Declare Scope text_scope.
Delimit Scope text_scope with text.
String Notation text Text text_bytes : text_scope.
''')
    for name in FILES:
        write(f, 'src/%s.rs' % name, name.replace('/', '_') + '_rs')
with open(os.path.join(here, '..', 'rocq', 'theories', 'RustTestText.v'), 'w') as f:
    f.write('''(** The text of the Rust files of /repo/tests, byte for byte (generated by tools/gen_source.py; quotes doubled, long
    files in pieces). *)
From Coq Require Import Init.Byte List.
From Verif Require Import RustText.
''')
    for name in TESTS:
        write(f, 'tests/%s.rs' % name, 'tests_' + name + '_rs')
