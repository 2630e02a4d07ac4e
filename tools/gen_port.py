#!/usr/bin/env python3
"""Transcribe the lane-by-lane portable functions of /repo/src/arch into rocq/theories/PortTables.v.

Usage: python3 tools/gen_port.py /repo > rocq/theories/PortTables.v
Copies every portable (not optimized!()) body of the Abs, Upcast and Downcast impls,
every hop! invocation of the horizontal operations, and every index list of the
Destride impls as they stand, with file and line; nothing is interpreted.
"""
import re, sys

repo = sys.argv[1]


def ty(name):
    m = re.fullmatch(r"([uif])(\d+)x(\d+)", name)
    return f"(mkVty {m.group(3)} {int(m.group(2)) // 8})"


def sel(k):
    return {"f32": "EF32", "f64": "EF64"}.get(k, f"(EInt {k})")


def el(name):
    return sel(name.split("x")[0])


def zl(s):
    return "[" + "; ".join(x.strip() for x in s.split(",") if x.strip()) + "]"


def blank_comments(t):
    return re.sub(r"//[^\n]*", lambda m: " " * len(m.group(0)), t)


def matching(t, i, o="{", c="}"):
    d = 0
    for j in range(i, len(t)):
        if t[j] == o:
            d += 1
        elif t[j] == c:
            d -= 1
            if d == 0:
                return j
    raise ValueError


def split_top(s):
    out, d, cur = [], 0, ""
    for ch in s:
        if ch in "([{":
            d += 1
        if ch in ")]}":
            d -= 1
        if ch == "," and d == 0:
            out.append(cur)
            cur = ""
        else:
            cur += ch
    if cur.strip():
        out.append(cur)
    return [re.sub(r"\s+", " ", x.strip()) for x in out]


def num(s):
    return str(int(s, 0)) if not s.startswith("-") else f"(-{int(s[1:], 0)})"


def element(s, srcs):
    m = re.fullmatch(r"unsafe \{ transmute::<(\w+), (\w+)>\((\w+)\.extract\((\d+)\)\.overflowing_abs\(\)\.0\) \}", s)
    if m:
        return srcs.index(m.group(3)), m.group(4), [f"POverflowingAbs", f"PTransmute {m.group(1)} {m.group(2)}"]
    m = re.fullmatch(r"(\w+)\.extract\((\d+)\)((?:\.\w+\([^()]*\))*)(?: as (\w+))?", s)
    assert m, s
    ops = []
    for c in re.finditer(r"\.(\w+)\(([^()]*)\)", m.group(3)):
        if c.group(1) == "min":
            ops.append(f"PMin {num(c.group(2))}")
        elif c.group(1) == "max":
            ops.append(f"PMax {num(c.group(2))}")
        elif c.group(1) == "abs" and not c.group(2):
            ops.append("PFAbs")
        else:
            raise ValueError(s)
    if m.group(4):
        ops.append(f"PAs {sel(m.group(4))}")
    return srcs.index(m.group(1)), m.group(2), ops


def vec_new(s, out, srcs):
    m = re.fullmatch(r"(?:Self::Out|Self|\w+)::new\((.*)\)", s, re.S)
    if not s.startswith("Self"):
        assert s.startswith(out + "::new"), (s, out)
    rows = [element(e, srcs) for e in split_top(m.group(1))]
    return "[" + "; ".join(f"({a}%nat, {i}, [{'; '.join(o)}])" for a, i, o in rows) + "]"


def feature(attrs):
    m = re.search(r'#\[cfg\(not\(target_feature = "(.*?)"\)\)\]', attrs)
    return m.group(1) if m else ""


def port(arch, fname, what):
    path = f"src/arch/{arch}/intrin/{fname}.rs"
    t = blank_comments(open(f"{repo}/{path}").read())
    rows = []
    for m in re.finditer(r"impl (\w+)(?:<(\w+)>)? for (\w+) \{", t):
        trait, arg, vec = m.groups()
        e = matching(t, m.end() - 1)
        block = t[m.end():e]
        o = re.search(r"type Out = (\w+);", block)
        out = arg or (o.group(1) if o else vec)
        pos = 0
        for f in re.finditer(r"((?:#\[[^\n]*\]\s*)*)fn (\w+)\(&?self(?:, other: Self)?\)[^{]*\{", block):
            b = block[f.end():matching(block, f.end() - 1)]
            if "optimized!" in b:
                continue
            ln = t.count("\n", 0, m.end() + f.start(2)) + 1
            b = b.replace("fallback!();", "").strip()
            parts = split_top(b[1:-1]) if b.startswith("(") else [b]
            body = ";\n     ".join(vec_new(re.sub(r"\s+", " ", p.strip()), out, ["self", "other"]) for p in parts)
            rows.append(f'  (* {path}:{ln} *)\n  mkPort "{trait}" "{f.group(2)}" "{vec}" {ty(vec)} {el(vec)} "{out}" {ty(out)} {el(out)} "{feature(f.group(1))}"\n    [{body}]')
    print(f"(** {path} *)\nDefinition {arch}_{what} : list port_impl := [\n" + ";\n".join(rows) + "].\n")


def hops(arch, fname):
    path = f"src/arch/{arch}/intrin/{fname}.rs"
    t = blank_comments(open(f"{repo}/{path}").read())
    rows = []
    for m in re.finditer(r"((?:#\[[^\n]*\]\n)*)impl (\w+) for (\w+) \{ hop!\((\w+), ([\w:]+), ([^()]*)\); \}", t):
        ln = t.count("\n", 0, m.start(2)) + 1
        attrs, trait, vec, fn, path_, idx = m.groups()
        rows.append(f'  (* {path}:{ln} *)\n  mkHop "{trait}" "{fn}" "{vec}" {ty(vec)} {el(vec)} "{path_}" "{feature(attrs)}"\n    {zl(idx)}')
    assert len(rows) == t.count("hop!"), path
    print(f"(** {path} *)\nDefinition {arch}_{fname} : list hop_impl := [\n" + ";\n".join(rows) + "].\n")


def destrides(arch):
    path = f"src/arch/{arch}/intrin/destride.rs"
    t = blank_comments(open(f"{repo}/{path}").read())
    rows = []
    for m in re.finditer(r"impl Destride for (\w+) \{", t):
        vec = m.group(1)
        e = matching(t, m.end() - 1)
        block = t[m.end():e]
        two = re.search(r"destride_two_polyfill!\(self, other, ([^()]*)\)", block)
        four = re.search(r"destride_four_polyfill!\(self, b, c, d, ([^()]*)\)", block)
        ln = t.count("\n", 0, m.start()) + 1
        rows.append(f'  (* {path}:{ln} *)\n  mkDestride "{vec}" {ty(vec)} {el(vec)} "{feature(block)}"\n    {zl(two.group(1))}\n    {zl(four.group(1))}')
    for m in re.finditer(r"impl_destride!\((\w+), ([^()]*)\);", t):
        ln = t.count("\n", 0, m.start()) + 1
        vec = m.group(1)
        rows.append(f'  (* {path}:{ln} *)\n  destride_macro "{vec}" {ty(vec)} {el(vec)}\n    {zl(m.group(2))}')
    print(f"(** {path} *)\nDefinition {arch}_destride : list destride_impl := [\n" + ";\n".join(rows) + "].\n")


print('''(** Portable lane-by-lane functions of /repo/src/arch, transcribed by
    tools/gen_port.py.  Each entry cites the file and line it was copied from. *)
From Coq Require Import String.
From Verif Require Import Base Lanes OpTables.
Open Scope string_scope.
Open Scope Z_scope.

(** What is applied to a lane, first to last: [.min(n)], [.max(n)], [as T], float
    [.abs()], [.overflowing_abs().0] and [transmute::<A, B>]. *)
Inductive pop :=
| PMin (n : Z) | PMax (n : Z) | PAs (e : elty) | PFAbs | POverflowingAbs | PTransmute (a b : ity).

(** A portable function: trait, function, vector it is for, its result vector type, the
    target feature whose absence selects it (empty: always), and for every result
    vector the arguments of its [new]: which operand, which lane, what is applied. *)
Record port_impl := mkPort {
  pt_trait : string; pt_fn : string; pt_vec : string; pt_ty : vty; pt_el : elty;
  pt_outvec : string; pt_outty : vty; pt_out : elty; pt_not : string;
  pt_body : list (list (nat * Z * list pop)) }.

(** One [hop!] invocation: trait, function, vector, the scalar function, the feature
    whose absence selects it, and the index list. *)
Record hop_impl := mkHop {
  h_trait : string; h_fn : string; h_vec : string; h_ty : vty; h_el : elty;
  h_op : string; h_not : string; h_idx : list Z }.

(** A [Destride] impl: the indices given to [destride_two_polyfill!] (used when the
    feature is absent) and to [destride_four_polyfill!]. *)
Record destride_impl := mkDestride {
  d_vec : string; d_ty : vty; d_el : elty; d_not : string; d_two : list Z; d_four : list Z }.

(** The [impl_destride!] macro (src/arch/x86/intrin/destride.rs:130-146): its
    arguments are read in pairs [$two, $four]; all of them go to the first polyfill,
    the [$two]s to the second. *)
Fixpoint firsts (l : list Z) : list Z :=
  match l with x :: _ :: l' => x :: firsts l' | _ => [] end.
Definition destride_macro (v : string) (t : vty) (e : elty) (l : list Z) : destride_impl :=
  mkDestride v t e "" l (firsts l).
''')
for arch in ("x86", "unknown"):
    for f in ("abs", "upcast", "downcast"):
        port(arch, f, f)
    for f in ("hadd", "hsub", "saturating_hadd", "saturating_hsub"):
        hops(arch, f)
    destrides(arch)
