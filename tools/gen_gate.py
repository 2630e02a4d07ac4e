#!/usr/bin/env python3
"""Transcribe the feature gates of /repo/src/arch/x86 into rocq/theories/GateTables.v.

Usage: python3 tools/gen_gate.py /repo > rocq/theories/GateTables.v
One entry per method definition: trait, vector, method, the target features its cfg
attributes require and exclude, and every intrinsic named in its body.  Macro
invocations are listed as the definitions they expand to (src/intrin/*.rs,
src/vecs.rs); nothing is evaluated.
"""
import re, sys, os

repo = sys.argv[1]
entries, widths = [], []
MM = r"_mm(?:256|512)?_[a-z0-9_]+"


def blank(t):
    t = re.sub(r"//[^\n]*", lambda m: " " * len(m.group(0)), t)
    return re.sub(r"/\*.*?\*/", lambda m: re.sub(r"[^\n]", " ", m.group(0)), t, flags=re.S)


def close(t, i):
    o = t[i]
    c = {"(": ")", "{": "}", "[": "]"}[o]
    d = 0
    for j in range(i, len(t)):
        if t[j] == o:
            d += 1
        elif t[j] == c:
            d -= 1
            if d == 0:
                return j
    raise ValueError


def split_top(s):
    out, d, cur = [], 0, ""
    for ch in s:
        d += (ch in "([{") - (ch in ")]}")
        if ch == "," and d == 0:
            out.append(cur.strip())
            cur = ""
        else:
            cur += ch
    if cur.strip():
        out.append(cur.strip())
    return out


def cfg(attr):
    m = re.fullmatch(r"cfg\((.*)\)", attr.strip())
    if not m:
        return [], [], False
    b = m.group(1).strip()
    if b == "test":
        return [], [], True
    m = re.fullmatch(r'target_feature = "([^"]*)"', b)
    if m:
        return [m.group(1)], [], False
    m = re.fullmatch(r'not\(target_feature = "([^"]*)"\)', b)
    assert m, b
    return [], [m.group(1)], False


def uniq(l):
    return list(dict.fromkeys(l))


def emit(rel, line, trait, vec, fn, pos, neg, mm):
    entries.append((rel, line, trait, vec, fn, uniq(pos), uniq(neg), uniq(mm)))


def macro(rel, t, at, name, body, pos, neg, trait, vec):
    line = t.count("\n", 0, at) + 1
    if name in ("rust_fallback_impl", "rust_fallback_impl_binary", "rust_fallback_eq"):
        h = re.match(r'\s*impl (\w+) for (\w+) where "([^"]*)" \{', body)
        off = t.index(body, at)
        for m in re.finditer(r"(\w+)(?:, \w+)? => (?:\w+, \w+, )?(" + MM + r")\(", body):
            l = t.count("\n", 0, off + m.start()) + 1
            emit(rel, l, h.group(1), h.group(2), m.group(1), pos + [h.group(3)], neg, [m.group(2)])
            emit(rel, l, h.group(1), h.group(2), m.group(1), pos, neg + [h.group(3)], [])
        return
    a = split_top(body)
    s = lambda x: x.strip('"')
    if name == "hop":
        emit(rel, line, trait, vec, a[0], pos, neg, [])
    elif name == "impl_packed_merge":
        for fn in ("merge_halves", "merge_interleaved", "merge_partitioned"):
            emit(rel, line, "Merge", a[0], fn, pos + [s(a[4])], neg, [a[3]])
            emit(rel, line, "Merge", a[0], fn, pos, neg + [s(a[4])], [])
    elif name in ("impl_packed_swap_bytes", "impl_packed_swizzle"):
        tr, fn = ("Reendianize", "swap_bytes") if name == "impl_packed_swap_bytes" else ("Swizzle", "flip")
        emit(rel, line, tr, a[0], fn, pos + [s(a[2])], neg, [a[3]])
        emit(rel, line, tr, a[0], fn, pos, neg + [s(a[2])], [])
    elif name in ("impl_packed_sum", "impl_packed_upcast_sum"):
        tr, fn = ("Sum", "sum") if name == "impl_packed_sum" else ("UpcastSum", "sum_upcast")
        for v in a:
            emit(rel, line, tr, v, fn, pos, neg, [])
    elif name == "impl_popcnt":
        for i in range(0, len(a), 2):
            emit(rel, line, "Popcnt", a[i], "count_ones", pos, neg, [])
    elif name == "impl_destride":
        for fn in ("destride_two", "destride_four"):
            emit(rel, line, "Destride", a[0], fn, pos, neg, [])
    elif name == "impl_packed_transmute":
        for v in split_top(body.split("...")[0]):
            emit(rel, line, "Transmute", v, "be_", pos, neg, [])
    elif name == "impl_packed":
        fs = lambda x: re.findall(r'"([^"]*)"', x)
        widths.append((rel, line, a[0], a[1], a[2], int(a[3]), int(a[4]), fs(a[5]), fs(a[6])))
    else:
        raise ValueError(name)


def items(rel, t, i, end, trait, vec, pos, neg):
    attrs = []
    start = i
    while i < end:
        if t[i].isspace() or t[i] == ";":
            i += 1
            continue
        m = re.compile(r"#!?\[").match(t, i)
        if m:
            j = close(t, m.end() - 1)
            attrs.append(t[m.end():j])
            i = j + 1
            continue
        p, n, skip = list(pos), list(neg), False
        for x in attrs:
            q = cfg(x)
            p += q[0]
            n += q[1]
            skip |= q[2]
        attrs = []
        m = re.compile(r"(\w+)!\s*([({\[])").match(t, i)
        if m:
            j = close(t, m.end() - 1)
            macro(rel, t, i, m.group(1), t[m.end():j], p, n, trait, vec)
            i = j + 1
            continue
        m = re.compile(r"(pub )?(use|const|static|type|mod \w+;)").match(t, i)
        if m:
            d = 0
            while True:
                d += (t[i] in "([{") - (t[i] in ")]}")
                if t[i] == ";" and d == 0:
                    break
                i += 1
            continue
        m = re.compile(r"macro_rules! \w+ \{|(pub )?mod \w+ \{|impl(<\w+>)? ([^{]*?) for (\w+) \{|((?:pub )?(?:unsafe )?fn (\w+))").match(t, i)
        assert m, t[i:i + 80]
        if t.startswith("impl", i):
            o = m.end() - 1
            j = close(t, o)
            if not skip:
                items(rel, t, o + 1, j, m.group(3), m.group(4), p, n)
        elif m.group(5):
            o = t.index("{", m.end())
            j = close(t, o)
            if not skip:
                emit(rel, t.count("\n", 0, i) + 1, trait, vec, m.group(6), p, n, re.findall(MM, t[o:j]))
        else:
            j = close(t, m.end() - 1)
            assert skip or t.startswith(("macro_rules", "mod tests"), i)
        i = j + 1


def scan(base):
    entries.clear()
    widths.clear()
    files = [f"{base}/vecs.rs", f"{base}/vec_patterns.rs"] + sorted(f"{base}/intrin/{f}" for f in os.listdir(f"{repo}/{base}/intrin") if f != "mod.rs")
    for rel in files:
        t = blank(open(f"{repo}/{rel}").read())
        items(rel, t, 0, len(t), "", "", [], [])
    return list(entries), list(widths)


sl = lambda l: "[" + "; ".join(f'"{x}"' for x in l) + "]"
print("""(** Feature gates of /repo/src/arch/x86, transcribed by tools/gen_gate.py.
    Each entry cites the file and line it was copied from; nothing is computed here. *)
From Coq Require Import String.
From Verif Require Import Base.
Open Scope string_scope.
Open Scope Z_scope.

(** One method definition: trait, vector (both empty for a free function), method,
    features required and excluded by its cfg attributes, intrinsics in its body. *)
Record gated := mkGated { g_trait : string; g_vec : string; g_fn : string; g_pos : list string; g_neg : list string; g_mm : list string }.

(** One [impl_packed!] line: scalar, natural vector alias, vector, bytes per lane,
    lanes, features required and excluded (src/vecs.rs:85-112). *)
Record packed_line := mkPacked { p_el : string; p_alias : string; p_vec : string; p_size : Z; p_width : Z; p_pos : list string; p_neg : list string }.
""")
for arch in ("x86",):
    es, ws = scan(f"src/arch/{arch}")
    print(f"Definition {arch}_gated : list gated := [")
    print(";\n".join(f'  (* {rel}:{line} *)\n  mkGated "{tr}" "{v}" "{fn}" {sl(p)} {sl(n)} {sl(mm)}' for rel, line, tr, v, fn, p, n, mm in es) + "].\n")
    print(f"Definition {arch}_packed : list packed_line := [")
    print(";\n".join(f'  (* {rel}:{line} *)\n  mkPacked "{el}" "{al}" "{v}" {sz} {w} {sl(p)} {sl(n)}' for rel, line, el, al, v, sz, w, p, n in ws) + "].\n")
