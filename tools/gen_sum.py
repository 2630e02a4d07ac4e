#!/usr/bin/env python3
"""Transcribe the impl_packed_sum!, impl_packed_upcast_sum! and impl_popcnt! invocations
of /repo/src/arch into rocq/theories/SumTables.v.

Usage: python3 tools/gen_sum.py /repo > rocq/theories/SumTables.v
"""
import re, sys

repo = sys.argv[1]


def ty(name):
    m = re.fullmatch(r"([uif])(\d+)x(\d+)", name)
    return f"(mkVty {m.group(3)} {int(m.group(2)) // 8})"


def el(name):
    k = name.split("x")[0]
    return {"f32": "EF32", "f64": "EF64"}.get(k, f"(EInt {k})")


def invocations(path, macro):
    out = []
    lines = open(f"{repo}/{path}").read().split("\n")
    for n, l in enumerate(lines):
        m = re.match(macro + r"!\((.*)\);", l.strip())
        if m:
            cfg = re.match(r'#\[cfg\(not\(target_feature = "([^"]*)"\)\)\]', lines[n - 1].strip())
            args = [x.strip() for x in m.group(1).split(",") if x.strip()]
            out.append((path, n + 1, cfg.group(1) if cfg else "", args))
    return out


def folds(name, path, macro):
    print(f"Definition {name} : list fold_impl := [")
    rows = []
    for p, n, cfg, args in invocations(path, macro):
        for i, v in enumerate(args):
            c = f"  (* {p}:{n} *)\n" if i == 0 else ""
            rows.append(f'{c}  mkFold "{v}" {ty(v)} {el(v)} "{cfg}"')
    print(";\n".join(rows) + "].\n")


print('''(** Invocations of [impl_packed_sum!], [impl_packed_upcast_sum!] and [impl_popcnt!] in
    /repo/src/arch, transcribed by tools/gen_sum.py.  Each group cites the file and
    line it was copied from. *)
From Coq Require Import String.
From Verif Require Import Base Lanes OpTables.
Open Scope string_scope.
Open Scope Z_scope.

(** A vector type and the target feature whose absence selects the portable
    implementation (empty: always). *)
Record fold_impl := mkFold { s_vec : string; s_ty : vty; s_el : elty; s_not : string }.
(** A vector type and the function that counts its bits. *)
Record popcnt_impl := mkPopcnt { c_vec : string; c_ty : vty; c_el : ity; c_fn : string }.
''')
folds("x86_sum", "src/arch/x86/intrin/sum.rs", "impl_packed_sum")
folds("x86_upcast_sum", "src/arch/x86/intrin/sum.rs", "impl_packed_upcast_sum")
folds("unknown_sum", "src/arch/unknown/intrin/sum.rs", "impl_packed_sum")
folds("unknown_upcast_sum", "src/arch/unknown/intrin/sum.rs", "impl_packed_upcast_sum")
print("Definition x86_popcnt : list popcnt_impl := [")
rows = []
for p, n, cfg, args in invocations("src/arch/x86/intrin/popcnt.rs", "impl_popcnt"):
    for i in range(0, len(args), 2):
        c = f"  (* {p}:{n} *)\n" if i == 0 else ""
        rows.append(f'{c}  mkPopcnt "{args[i]}" {ty(args[i])} {args[i].split("x")[0]} "{args[i + 1]}"')
print(";\n".join(rows) + "].")
