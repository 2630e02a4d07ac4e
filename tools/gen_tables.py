#!/usr/bin/env python3
"""Transcribe the literal tables of /repo/src/arch into rocq/theories/Tables.v.

Usage: python3 tools/gen_tables.py /repo > rocq/theories/Tables.v
Nothing is interpreted here: every literal list of the macro invocations and of
the generated vec_patterns.rs files is copied as it stands, with its file and line.
"""
import re, sys

repo = sys.argv[1]


def src(path):
    return open(f"{repo}/{path}").read()


def ty(name):
    m = re.fullmatch(r"([uif])(\d+)x(\d+)", name)
    return f"(mkVty {m.group(3)} {int(m.group(2)) // 8})"


def zl(s):
    return "[" + "; ".join(x.strip() for x in s.split(",") if x.strip()) + "]"


def line(text, pos):
    return text.count("\n", 0, pos) + 1


def pat(args):
    return "".join({"hi": "h", "lo": "l"}[a.strip()] for a in args.split(","))


out = []


def patterns(arch):
    path = f"src/arch/{arch}/vec_patterns.rs"
    t = src(path)
    m = re.search(r"const PART_MASK: \[u8; 128\] = \[(.*?)\];", t, re.S)
    out.append(f"(** {path}:{line(t, m.start())}-{line(t, m.end())} [PART_MASK]. *)")
    out.append(f"Definition {arch}_part_mask : list Z := " +
               zl(",".join(str(int(x, 16)) for x in re.findall(r"0x..", m.group(1)))) + ".\n")
    rows = []
    blocks = [(b.start(), b.group(1)) for b in re.finditer(r"^impl Pattern for (\w+) \{", t, re.M)]
    for i, (start, name) in enumerate(blocks):
        end = blocks[i + 1][0] if i + 1 < len(blocks) else len(t)
        b = t[start:end]
        halfs = re.search(r"fn halfs\(.*?\{\s*Self::new\((.*?)\)", b, re.S).group(1)
        inter = re.search(r"fn interleave\(.*?\{\s*Self::new\((.*?)\)", b, re.S).group(1)
        arms = re.findall(r"^\s*(\d+) => Self::new\((.*?)\)", b, re.M)
        ones = re.search(r"fn ones\(\).*?transmute\(0x([0-9A-F]+)u\d+\)", b, re.S).group(1)
        zeroes = re.search(r"fn zeroes\(\).*?transmute\(0x([0-9A-F]+)u\d+\)", b, re.S).group(1)
        a = ";\n       ".join(f'({k}, "{pat(v)}")' for k, v in arms)
        rows.append(f'  (* {path}:{line(t, start)} *)\n  mkPattern "{name}" {ty(name)} "{pat(halfs)}" "{pat(inter)}"\n'
                    f"      [{a}]\n      {int(ones, 16)} {int(zeroes, 16)}")
    out.append(f"Definition {arch}_patterns : list pattern_impl := [\n" + ";\n".join(rows) + "].\n")


def invocations(path, macro):
    t = src(path)
    for m in re.finditer(macro + r"!\((.*?)\);", t, re.S):
        yield line(t, m.start()), m.group(1)


def feat(f):
    return f'"{f}"'


def merges(arch):
    path = f"src/arch/{arch}/intrin/merge.rs"
    rows = []
    for ln, body in invocations(path, r"^impl_packed_merge" if False else r"impl_packed_merge"):
        m = re.fullmatch(r'(\w+), (\w+), +(\w+), (\w+), "(.*?)", \((.*?)\), \((.*?)\), (.*)', body, re.S)
        vec, uvec, uscl, fn, f, a, b, n = m.groups()
        rows.append(f'  (* {path}:{ln} *)\n  mkMerge "{vec}" {ty(vec)} "{uvec}" {int(uscl[1:]) // 8} "{fn}" "{f}"\n    {zl(a)} {zl(b)}\n    {zl(n)}')
    out.append(f"Definition {arch}_merges : list merge_impl := [\n" + ";\n".join(rows) + "].\n")


def shuffles(arch, fname, macro, what):
    path = f"src/arch/{arch}/intrin/{fname}.rs"
    rows = []
    for ln, body in invocations(path, macro):
        m = re.fullmatch(r'(\w+), (\w+), "(.*?)", (\w+),\s*\((.*?)\),\s*\((.*?)\)', body, re.S)
        vec, uvec, f, fn, c, ab = m.groups()
        rows.append(f'  (* {path}:{ln} *)\n  mkShuffle "{vec}" {ty(vec)} "{uvec}" "{fn}" "{f}"\n    {zl(c)}\n    {zl(ab)}')
    out.append(f"Definition {arch}_{what} : list shuffle_impl := [\n" + ";\n".join(rows) + "].\n")


out.append('''(** Literal tables of /repo/src/arch, transcribed by tools/gen_tables.py.  Each entry
    cites the file and line it was copied from; nothing is computed here. *)
From Coq Require Import String.
From Verif Require Import Base.
Open Scope string_scope.
Open Scope Z_scope.

(** One [impl Pattern for ..] of vec_patterns.rs: the argument lists of the
    [Self::new] calls ("h" for [hi], "l" for [lo]) of [halfs], [interleave] and of
    every arm of the [match off] in [partition], and the literals of [ones]/[zeroes]. *)
Record pattern_impl := mkPattern {
  pi_name : string; pi_ty : vty; pi_halfs : string; pi_interleave : string;
  pi_arms : list (Z * string); pi_ones : Z; pi_zeroes : Z }.

(** One [impl_packed_merge!] invocation: vector, mask vector, mask scalar size,
    intrinsic, target feature, and the three index lists. *)
Record merge_impl := mkMerge {
  mi_name : string; mi_ty : vty; mi_uvec : string; mi_usize : nat; mi_fn : string; mi_feat : string;
  mi_a : list Z; mi_b : list Z; mi_n : list Z }.

(** One [impl_packed_swizzle!] or [impl_packed_swap_bytes!] invocation: vector, byte
    vector, intrinsic, target feature, the byte shuffle control and the lane indices. *)
Record shuffle_impl := mkShuffle {
  sh_name : string; sh_ty : vty; sh_uvec : string; sh_fn : string; sh_feat : string;
  sh_c : list Z; sh_ab : list Z }.
''')
patterns("x86")
patterns("unknown")
merges("x86")
merges("unknown")
shuffles("x86", "swizzle", "impl_packed_swizzle", "swizzles")
shuffles("x86", "endian", "impl_packed_swap_bytes", "swap_bytes")
shuffles("unknown", "endian", "impl_packed_swap_bytes", "swap_bytes")
print("\n".join(out))
