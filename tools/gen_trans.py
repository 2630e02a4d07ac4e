#!/usr/bin/env python3
"""Transcribe the impl_packed_transmute! invocations of /repo/src/arch into Coq."""
import re, sys
REPO = sys.argv[1] if len(sys.argv) > 1 else "/repo"
# the order of the macro's parameters after "..." (src/intrin/transmute.rs:35-36)
ORDER = ["u8s", "i8s", "u16s", "i16s", "u32s", "i32s", "f32s", "u64s", "i64s", "f64s"]
print('''(** Invocations of [impl_packed_transmute!] in /repo/src/arch, transcribed by
    tools/gen_trans.py.  Each group cites the file and line it was copied from. *)
From Coq Require Import String.
From Verif Require Import Base.
Open Scope string_scope.

(** One [impl Transmute for ..] (src/intrin/transmute.rs:34-102): the vector, and for each
    of the methods [be_u8s] ... [be_f64s_unchecked] the name of the associated type it
    returns and the vector that type stands for. *)
Record trans_impl := mkTrans { tr_vec : string; tr_types : list (string * string) }.
''')
for arch in ("x86", "unknown"):
    path = "src/arch/%s/intrin/transmute.rs" % arch
    text = open(REPO + "/" + path).read()
    out = []
    for m in re.finditer(r"impl_packed_transmute!\((.*?)\);", text, re.S):
        line = text[:m.start()].count("\n") + 1
        left, right = m[1].split("...")
        vecs = [v.strip() for v in left.split(",") if v.strip()]
        types = [v.strip() for v in right.split(",") if v.strip()][:10]
        pairs = "; ".join('("%s", "%s")' % p for p in zip(ORDER, types))
        for k, v in enumerate(vecs):
            cite = "  (* %s:%d *)\n" % (path, line) if k == 0 else ""
            out.append('%s  mkTrans "%s" [%s]' % (cite, v, pairs))
    print("Definition %s_transmute : list trans_impl := [\n%s].\n" % (arch, ";\n".join(out)))
