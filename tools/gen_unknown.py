#!/usr/bin/env python3
"""Transcribe the impl_packed_type!, impl_from!, impl_ops!, impl_assignops! and impl_cast!
invocations of /repo/src/arch/unknown/vecs.rs into rocq/theories/UnknownTables.v.

Usage: python3 tools/gen_unknown.py /repo > rocq/theories/UnknownTables.v
"""
import re, sys

repo = sys.argv[1]
path = "src/arch/unknown/vecs.rs"
text = open(f"{repo}/{path}").read()


def el(name):
    k = name.split("x")[0]
    return {"f32": "EF32", "f64": "EF64"}.get(k, f"(EInt {k})")


def invocations(macro):
    for m in re.finditer(r"^" + macro + r"!\((.*?)\);", text, re.M | re.S):
        yield text[: m.start()].count("\n") + 1, re.sub(r"\s+", " ", m.group(1))


def table(name, ty, rows):
    print(f"Definition {name} : list {ty} := [")
    print(";\n".join(f"  (* {path}:{n} *) {r}" for n, r in rows) + "].\n")


print('''(** The invocations that define the portable vector types in /repo/src/arch/unknown/vecs.rs,
    transcribed by tools/gen_unknown.py.  Each row cites the line it was copied from. *)
From Coq Require Import String.
From Verif Require Import Base Lanes OpTables.
Open Scope string_scope.
Open Scope Z_scope.

(** [impl_packed_type!]: name, element, number of lanes, number of constructor
    parameters. *)
Record utype := mkUType { ut_name : string; ut_el : elty; ut_sz : Z; ut_params : nat }.
(** [impl_ops!] / [impl_assignops!]: vector, element named in the invocation, trait and
    operator. *)
Record uop := mkUOp { uo_vec : string; uo_el : elty; uo_ops : list (string * string) }.
(** [impl_cast!]: source, target, element cast to, method. *)
Record ucast := mkUCast { uc_from : string; uc_to : string; uc_el : elty; uc_name : string }.
(** [impl_from!]: target and sources. *)
Record ufrom := mkUFrom { uf_to : string; uf_from : list string }.
''')
rows = []
for n, a in invocations("impl_packed_type"):
    m = re.fullmatch(r"(\w+), (\w+), (\w+), (\d+), \[(.*)\]", a)
    ps = [x.strip() for x in m.group(5).split(",")]
    assert ps == [f"x{i}" for i in range(len(ps))]
    rows.append((n, f'mkUType "{m.group(3)}" {el(m.group(1))} {m.group(4)} {len(ps)}'))
table("unknown_types", "utype", rows)
for macro, name in (("impl_ops", "unknown_ops"), ("impl_assignops", "unknown_assignops")):
    rows = []
    for n, a in invocations(macro):
        m = re.fullmatch(r"(\w+), (\w+), (.*)", a)
        ops = re.findall(r"\[(\w+), (\w+), (\S+)\]", m.group(3))
        l = "; ".join(f'("{t}", "{o}")' for t, f, o in ops)
        rows.append((n, f'mkUOp "{m.group(2)}" {el(m.group(1))}\n    [{l}]'))
    table(name, "uop", rows)
rows = []
for n, a in invocations("impl_cast"):
    x = [y.strip() for y in a.split(",")]
    rows.append((n, f'mkUCast "{x[0]}" "{x[1]}" {el(x[2])} "{x[3]}"'))
table("unknown_casts", "ucast", rows)
rows = []
for n, a in invocations("impl_from"):
    x = [y.strip() for y in a.split(",")]
    l = "; ".join(f'"{y}"' for y in x[1:])
    rows.append((n, f'mkUFrom "{x[0]}" [{l}]'))
table("unknown_froms", "ufrom", rows)
