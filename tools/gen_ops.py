#!/usr/bin/env python3
"""Transcribe the lane-wise operation tables of /repo/src/arch into rocq/theories/OpTables.v.

Usage: python3 tools/gen_ops.py /repo > rocq/theories/OpTables.v
Copies every rust_fallback_impl!, rust_fallback_impl_binary! and rust_fallback_eq!
invocation as it stands, with its file and line; nothing is interpreted.
"""
import re, sys

repo = sys.argv[1]


def ty(name):
    m = re.fullmatch(r"([uif])(\d+)x(\d+)", name)
    return f"(mkVty {m.group(3)} {int(m.group(2)) // 8})"


def el(name):
    k = name.split("x")[0]
    return {"f32": "EF32", "f64": "EF64"}.get(k, f"(EInt {k})")


def zl(s):
    return "[" + "; ".join(x.strip() for x in s.split(",") if x.strip()) + "]"


def blank_comments(t):
    return re.sub(r"//[^\n]*", lambda m: " " * len(m.group(0)), t)


def table(arch, fname, what):
    path = f"src/arch/{arch}/intrin/{fname}.rs"
    t = blank_comments(open(f"{repo}/{path}").read())
    rows = []
    for m in re.finditer(r'(rust_fallback_\w+)! \{\s*impl (\w+) for (\w+) where "(.*?)" \{(.*?)\n    \}\n\}', t, re.S):
        macro, trait, vec, feat, body = m.groups()
        for f in re.finditer(r"(\w+)(?:, (\w+))? => (?:(\w+), (\w+), )?(\w+)\(([^()]*)\), \[(.*?)\];", body, re.S):
            fn, rustfn, mask, maskel, mm, args, idx = f.groups()
            ln = t.count("\n", 0, m.start(5) + f.start()) + 1
            args = "[" + "; ".join(f'"{a.strip()}"' for a in args.split(",") if a.strip()) + "]"
            out = el(mask) if mask else el(vec)
            if mask:
                assert re.fullmatch(maskel + r"x\d+", mask) and ty(mask) == ty(vec), (path, ln)
            rows.append(f'  (* {path}:{ln} *)\n  mkOp "{trait}" "{vec}" {ty(vec)} {el(vec)} {out} "{fn}" "{feat}" "{mm}" {args}\n    {zl(idx)}')
    print(f"(** {path} *)\nDefinition {arch}_{what} : list op_impl := [\n" + ";\n".join(rows) + "].\n")


print('''(** Lane-wise operation tables of /repo/src/arch, transcribed by tools/gen_ops.py.
    Each entry cites the file and line it was copied from; nothing is computed here. *)
From Coq Require Import String.
From Verif Require Import Base Lanes.
Open Scope string_scope.
Open Scope Z_scope.

(** The element type of a vector. *)
Inductive elty := EInt (t : ity) | EF32 | EF64.

(** One line [fn => intrinsic(args), [indices]] of a [rust_fallback_impl!],
    [rust_fallback_impl_binary!] or [rust_fallback_eq!]: trait, vector, element type,
    element type of the result, function, target feature, intrinsic, its extra
    arguments, and the lane indices of the portable version. *)
Record op_impl := mkOp {
  op_trait : string; op_vec : string; op_ty : vty; op_el : elty; op_out : elty; op_fn : string;
  op_feat : string; op_mm : string; op_args : list string; op_idx : list Z }.
''')
for arch in ("x86", "unknown"):
    for fname, what in (("eq", "eq"), ("cmp", "cmp"), ("saturating_add", "saturating_add"), ("saturating_sub", "saturating_sub"),
                        ("round", "round"), ("sqrt", "sqrt"), ("recip", "recip"), ("rsqrt", "rsqrt")):
        table(arch, fname, what)
