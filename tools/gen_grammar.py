#!/usr/bin/env python3
"""Transcribes /repo/src/grammar.rs into rocq/theories/GrammarRs.v, one Gallina branch per Rust match arm.

usage: gen_grammar.py /repo/src/grammar.rs > rocq/theories/GrammarRs.v

Each automaton X gives X_push : N -> N -> option N (state, char -> new state, None for `return false`)
and X_is_accepting : N -> bool. The lines cited in the comments are lines of grammar.rs.
"""
import re, sys
src = open(sys.argv[1]).read().split("\n")
out = []
w = out.append
w("(** GENERATED by tools/gen_grammar.py from /repo/src/grammar.rs: do not edit.")
w("")
w("    One Gallina branch per arm of the Rust [match]es.  [state] models the field")
w("    [state: u32], [c] the argument [token: char] (its code point).  [None] models")
w("    [return false] (the state is then left as it was and validation stops).")
w("    [R \"a\" \"z\" c] is the pattern ['a'..='z'], [C \"a\" c] the pattern ['a']. *)")
w("From Verif Require Import Base.")
w("")
w("(** Rust range pattern ['lo'..='hi'] on a [char]. *)")
w("Definition R (lo hi : byte) (c : N) : bool := (code lo <=? c)%N && (c <=? code hi)%N.")
w("Arguments R (lo hi)%byte_scope c%N_scope.")
w("(** Rust literal pattern ['x'] on a [char]. *)")
w("Definition C (x : byte) (c : N) : bool := (c =? code x)%N.")
w("Arguments C x%byte_scope c%N_scope.")
w("")
w("Local Open Scope N_scope.")
i = 0
names = []
def patc(p):
    m = re.fullmatch(r"'(.)'\.\.='(.)'", p)
    if m: return 'R "%s" "%s" c' % (m[1], m[2])
    m = re.fullmatch(r"'(.)'", p)
    assert m, p
    return 'C "%s" c' % m[1]
while i < len(src):
    m = re.match(r"impl (\w+) \{", src[i])
    if not m:
        i += 1; continue
    name = m[1]; names.append(name)
    while "pub const fn new()" not in src[i]: i += 1
    newl = i + 1
    assert src[i+1].strip() == "Self { state: 0u32 }"
    while "pub const fn push" not in src[i]: i += 1
    start = i + 1
    assert src[i].strip() == "pub const fn push(&mut self, token: char) -> bool {"
    assert src[i+1].strip() == "self.state = match self.state {"
    i += 2
    states = []
    while True:
        l = src[i].strip()
        if l == "_ => return false,":
            assert src[i+1].strip() == "};" and src[i+2].strip() == "true" and src[i+3].strip() == "}"
            i += 4
            break
        m = re.fullmatch(r"(\d+)u32 => match token \{", l)
        assert m, (i+1, l)
        st = int(m[1]); sl = i + 1
        i += 1
        buf = ""
        arms = []
        while src[i].strip() != "},":
            buf += " " + src[i].strip()
            if buf.rstrip().endswith(","):
                b = buf.strip().rstrip(",")
                pats, tgt = b.split("=>")if "=>" in b else (None, None)
                pats = pats.strip(); tgt = tgt.strip()
                if pats == "_":
                    assert tgt == "return false"
                    arms.append((None, None))
                else:
                    m = re.fullmatch(r"(\d+)u32", tgt); assert m
                    arms.append(([x.strip() for x in pats.split("|")], int(m[1])))
                buf = ""
            i += 1
        assert buf == ""
        assert arms[-1] == (None, None) and all(a[0] for a in arms[:-1])
        states.append((st, sl, i + 1, arms[:-1]))
        i += 1
    end = i
    assert [s[0] for s in states] == list(range(len(states))) or True
    w("")
    w("(** grammar.rs:%d-%d, [%s::push]. *)" % (start, end, name))
    w("Definition %s_push (state c : N) : option N :=" % name)
    w("  match state with")
    for st, a, b, arms in states:
        w("  | %d => (* %d-%d *)" % (st, a, b))
        for pats, tgt in arms:
            w("    if %s then Some %d else" % (" || ".join(patc(p) for p in pats), tgt))
        w("    None")
    w("  | _ => None")
    w("  end.")
    while "pub const fn is_accepting" not in src[i]: i += 1
    a0 = i + 1
    body = ""
    i += 1
    while src[i] != "\t}":
        body += " " + src[i].strip(); i += 1
    m = re.fullmatch(r"\s*matches!\(\s*self\.state,\s*(.*?)\s*\)\s*", body)
    assert m, body
    acc = [int(re.fullmatch(r"(\d+)u32", x.strip())[1]) for x in m[1].split("|")]
    w("")
    w("(** grammar.rs:%d-%d, [%s::is_accepting]. *)" % (a0, i + 1, name))
    w("Definition %s_is_accepting (state : N) : bool :=" % name)
    w("  match state with")
    for k in range(0, len(acc), 12):
        w("  | " + " | ".join(map(str, acc[k:k+12])))
    w("    => true")
    w("  | _ => false")
    w("  end.")
sys.stdout.write("\n".join(out) + "\n")
sys.stderr.write(" ".join(names) + "\n")
