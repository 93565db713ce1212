"""Write theories/CgTables.v: the tables that relate the tensors of restricted, unrestricted and general
calculations (names and kinds as in translate_codegen.py).  The rules are:

* closed shell: alpha and beta orbitals coincide with the spatial ones; Fock matrix and integrals do not
  depend on the spin.  Singles and doubles of an unrestricted calculation are the restricted ones,
  antisymmetrised over indices of equal spin and halved (cc/uebcc.py:107-175, from_rebcc).  Triples come from
  a spatial tensor S with S_ijkabc = S_jikbac = ...: the restricted ones are S_ijkabc - S_kjiabc, the
  unrestricted ones are S antisymmetrised over each group of n indices of equal spin and divided by n!.
  (This is how the generated equations use them; from_rebcc rescales triples differently.)
* results: residuals keep the spin structure of the amplitudes, but those of equal spin are not halved;
  the residual of three equal spins is the cyclic sum of the restricted one over the virtual orbitals;
* spin orbitals: the orbitals of a general calculation are the alpha ones followed by the beta ones;
  integrals are antisymmetrised, <pq||rs> = (pr|qs) - (ps|qr); amplitudes are antisymmetric, and a block of an
  unrestricted calculation is the general one divided by n! for n occupied indices of equal spin
  (cc/gebcc.py:150-203, from_uebcc); the residuals are not divided.
"""
import itertools, math, os, sys
from fractions import Fraction as Fr

sys.path.insert(0, os.path.dirname(__file__))
import translate_codegen as tc

LET = {"o": "ijklmn", "v": "abcdef", "x": "PQ", "b": "xy"}
PERM8 = [(0, 1, 2, 3), (1, 0, 2, 3), (0, 1, 3, 2), (1, 0, 3, 2), (2, 3, 0, 1), (3, 2, 0, 1), (2, 3, 1, 0), (3, 2, 1, 0)]


def strip(c):
    return c[0]


def spin(c):
    return c[1:]


def labels(kinds):
    n, out = {}, []
    for c in kinds:
        k = n.get(c, 0)
        n[c] = k + 1
        out.append(LET[c[0]][k] + c[1:].upper())
    return tuple(out)


def sign(P):
    return -1 if sum(1 for i in range(len(P)) for j in range(i) if P[j] > P[i]) % 2 else 1


def coq_name(x):
    return "n_" + x.replace(".", "'")


class Basis:
    """Basis tensors with their kinds and symmetries."""

    def __init__(self):
        self.kinds, self.syms = {}, {}

    def add(self, name, kinds, syms=()):
        kinds = tuple(kinds)
        assert self.kinds.setdefault(name, kinds) == kinds, (name, kinds, self.kinds[name])
        s = [(tuple(P), sg) for P, sg in syms if tuple(P) != tuple(range(len(kinds)))]
        if s:
            self.syms[name] = s
        return name

    def chem(self, kinds, ls, namer):
        """(pq|rs) in terms of the basis block in standard order."""
        k, P = min((tuple(kinds[i] for i in P), P) for P in PERM8)
        name = self.add(namer(k), k, [(Q, 1) for Q in PERM8 if tuple(k[i] for i in Q) == k])
        return (name, tuple(ls[i] for i in P))


def fold_labels(terms, groups):
    """Antisymmetrise labels over groups of positions."""
    for g in groups:
        new = []
        for c, ls in terms:
            for Q in itertools.permutations(range(len(g))):
                l2 = list(ls)
                for a, b in zip(g, Q):
                    l2[a] = ls[g[b]]
                new.append((c * sign(Q), tuple(l2)))
        terms = new
    return terms


def family(name):
    """Base, spin string, block letters of a dotted name."""
    p = name.split(".")
    if p[0] in ("f", "v", "g"):
        return (p[0], p[1], p[2]) if len(p) == 3 else (p[0], "", p[1])
    return p[0], (p[1] if len(p) > 1 else ""), ""


def amp(base):
    """Kind and rank of an amplitude: t2 -> ('t', 2)."""
    b = base[:-3] if base.endswith("new") else base
    return (b[0], int(b[1:])) if len(b) == 2 and b[0] in "tlc" and b[1].isdigit() else None


# ---------------------------------------------------------------- closed shell
def closed_shell_input(B, name, kinds):
    base, sp, blk = family(name)
    k = tuple(strip(c) for c in kinds)
    ls = labels(k)
    if base == "f":
        if k == ("v", "o"):
            return ls, [(1, [(B.add("f.ov", "ov"), (ls[1], ls[0]))])]
        return ls, [(1, [(B.add("f." + "".join(k), k, [((1, 0), 1)] if k[0] == k[1] else []), ls)])]
    if base == "v" and len(k) == 4:
        return ls, [(1, [B.chem(k, ls, lambda q: "v." + "".join(q))])]
    if base == "v":
        return ls, [(1, [(B.add("v." + "".join(k), k, [((0, 2, 1), 1)] if k[1] == k[2] else []), ls)])]
    a = amp(base)
    if a:
        n = a[1]
        S = [(tuple(P) + tuple(n + p for p in P), 1) for P in itertools.permutations(range(n))]
        B.add(base, k, S)
        if not sp:
            if n == 3:
                return ls, [(1, [(base, ls)]), (-1, [(base, ls[2::-1] + ls[3:])])]
            return ls, [(1, [(base, ls)])]
        groups = {}
        for i in range(2 * n):
            groups.setdefault((i >= n, sp[i]), []).append(i)
        f = Fr(1)
        for g in groups.values():
            f /= math.factorial(len(g))
        t = fold_labels([(f, ls)], groups.values())
        return ls, [(c, [(base, l)]) for c, l in merge(B, base, t)]
    if base == "g":
        return ls, [(1, [(B.add("g." + blk, k), ls)])]
    if base == "w":
        return ls, [(1, [(B.add("w", "bb", [((1, 0), 1)]), ls)])]
    if base in ("G", "s1", "ls1", "u11", "lu11"):
        return ls, [(1, [(B.add(base, k), ls)])]
    if base in ("s2", "ls2"):
        return ls, [(1, [(B.add(base, k, [((1, 0), 1)]), ls)])]
    if base in ("u12", "lu12"):
        return ls, [(1, [(B.add(base, k, [((1, 0, 2, 3), 1)]), ls)])]
    raise KeyError(name)


def merge(B, base, terms):
    """Collect terms equal by symmetry."""
    out = {}
    for c, ls in terms:
        key = min(tuple(ls[i] for i in P) for P, _ in [(tuple(range(len(ls))), 1)] + B.syms.get(base, []))
        out[key] = out.get(key, 0) + c
    return [(c, ls) for ls, c in out.items() if c]


def closed_shell_output(B, name, kinds):
    base, sp, blk = family(name)
    k = tuple(strip(c) for c in kinds)
    ls = labels(k)
    a = amp(base)
    if a and sp:
        n = a[1]
        groups = {}
        for i in range(2 * n):
            groups.setdefault((i >= n, sp[i]), []).append(i)
        if n == 2 and len(set(sp)) == 1:
            # the generated code returns the antisymmetrised residual, not half of it
            return ls, [(1, [(base, ls)]), (-1, [(base, (ls[1], ls[0]) + ls[2:])])]
        if n == 3:
            if len(set(sp)) == 2:
                return ls, [(1, [(base, ls)])]
            return ls, [(1, [(base, ls[:3] + ls[3 + s:] + ls[3:3 + s])]) for s in range(3)]
        if n > 3:
            raise KeyError(name)
    return ls, [(1, [(base, ls)])]


# ---------------------------------------------------------------- spin orbitals
def aa(n):
    return [(tuple(P) + tuple(n + q for q in Q), sign(P) * sign(Q)) for P in itertools.permutations(range(n)) for Q in itertools.permutations(range(n))]


TARGET = {2: {"aa": "aaaa", "bb": "bbbb", "ab": "abab"},
          3: {"aaa": "aaaaaa", "bbb": "bbbbbb", "aab": "abaaba", "abb": "babbab"},
          4: {"aaaa": "aaaaaaaa", "aaab": "aaabaaab", "aabb": "abababab", "abbb": "abbbabbb", "bbbb": "bbbbbbbb"}}


def uv(q):
    return "v.%s.%s" % ("".join(spin(c) for c in q), "".join(strip(c) for c in q))


def ufock(B, k, ls):
    if (k[0][0], k[1][0]) == ("v", "o"):
        k, ls = (k[1], k[0]), (ls[1], ls[0])
    return (B.add("f.%s.%s" % (k[0][1] + k[1][1], k[0][0] + k[1][0]), k, [((1, 0), 1)] if k[0] == k[1] else []), ls)


def usyms(sp):
    n = len(sp) // 2
    return [(P, s) for P, s in aa(n) if all(sp[P[i]] == sp[i] for i in range(2 * n))]


def unrestricted_input(B, name, kinds):
    base, sp, blk = family(name)
    k, ls = tuple(kinds), labels(kinds)
    if base == "f":
        return ls, [(1, [ufock(B, k, ls)])]
    if base == "v" and len(k) == 4:
        return ls, [(1, [B.chem(k, ls, uv)])]
    if base == "v":
        return ls, [(1, [(B.add("v.%s.x%s" % (k[1][1] + k[2][1], k[1][0] + k[2][0]), k, [((0, 2, 1), 1)] if k[1] == k[2] else []), ls)])]
    if amp(base):
        n = amp(base)[1]
        B.add(name, k, usyms(sp) if n > 1 else [])
        return ls, [(1, [(name, ls)])]
    if base == "g":
        return ls, [(1, [(B.add(name, k), ls)])]
    if base == "w":
        return ls, [(1, [(B.add("w", "bb", [((1, 0), 1)]), ls)])]
    if base in ("G", "s1", "ls1", "u11", "lu11"):
        return ls, [(1, [(B.add(name, k), ls)])]
    if base in ("s2", "ls2"):
        return ls, [(1, [(B.add(base, k, [((1, 0), 1)]), ls)])]
    if base in ("u12", "lu12"):
        return ls, [(1, [(B.add(name, k, [((1, 0, 2, 3), 1)]), ls)])]
    raise KeyError(name)


SPLIT = {"o": ("oa", "ob"), "v": ("va", "vb")}


def amp_block(name, pat, ls, n, out=False):
    sp = "".join(spin(c) for c in pat)
    if sorted(sp[:n]) != sorted(sp[n:]):
        return []
    tgt = sp if n == 1 else TARGET[n]["".join(sorted(sp[:n]))]
    for P, s in aa(n):
        if "".join(sp[i] for i in P) == tgt:
            f = 1
            if not out:
                for a in "ab":
                    for q in range(2, sp[:n].count(a) + 1):
                        f *= q
            return [(Fr(s * f), [(name + "." + tgt, tuple(ls[i] for i in P))])]
    raise AssertionError


def general_input(B, name, kinds):
    """All blocks: (labels, terms)."""
    base, sp, blk = family(name)
    for pat in itertools.product(*[SPLIT.get(c, (c,)) for c in kinds]):
        ls, t = labels(pat), []
        if base == "f":
            if spin(pat[0]) == spin(pat[1]):
                t = [(1, [ufock(B, pat, ls)])]
        elif base == "v" and len(pat) == 4:
            for s, ax in ((1, (0, 2, 1, 3)), (-1, (0, 3, 1, 2))):
                q = tuple(pat[i] for i in ax)
                if spin(q[0]) == spin(q[1]) and spin(q[2]) == spin(q[3]):
                    t.append((s, [B.chem(q, tuple(ls[i] for i in ax), uv)]))
        elif amp(base):
            t = amp_block(base, pat, ls, amp(base)[1])
        elif base in ("g", "u11", "lu11", "u12", "lu12"):
            s = [spin(c) for c in pat if spin(c)]
            if s[0] == s[1]:
                t = [(1, [(base + "." + s[0] * 2 + ("." + blk if base == "g" else ""), ls)])]
        elif base in ("w", "G", "s1", "s2", "ls1", "ls2"):
            t = [(1, [(base, ls)])]
        else:
            raise KeyError(name)
        if t:
            yield ls, t


def general_output(name, kinds):
    base, sp, blk = family(name)
    for pat in itertools.product(*[SPLIT.get(c, (c,)) for c in kinds]):
        ls = labels(pat)
        if amp(base):
            t = amp_block(base, pat, ls, amp(base)[1], out=True)
        elif base in ("u11new", "lu11new", "u12new", "lu12new"):
            s = [spin(c) for c in pat if spin(c)]
            t = [(1, [(base + "." + s[0] * 2, ls)])] if s[0] == s[1] else []
        else:
            t = [(1, [(base, ls)])]
        if t:
            yield ls, t


# ---------------------------------------------------------------- output
def show_ls(ls):
    return "[" + "; ".join(ls) + "]"


def show_mono(m):
    c, fs = m
    c = Fr(c)
    return "mono %s %d [%s]" % (c.numerator if c > 0 else "(%d)" % c.numerator, c.denominator, "; ".join("(%s, %s)" % (coq_name(x), show_ls(l)) for x, l in fs))


def show_table(name, doc, rows):
    s = "(** %s *)\nDefinition %s : table :=\n [" % (doc, name)
    return s + ";\n  ".join("(%s, (%s, [%s]))" % (coq_name(x), show_ls(ls), "; ".join(map(show_mono, t))) for x, ls, t in rows) + "].\n\n"


def show_basis(name, B):
    s = "Definition %s : list (ref * list cls) :=\n [" % name
    s += ";\n  ".join("(%s, [%s])" % (coq_name(x), ";".join(str(tc.CODE[c]) for c in k)) for x, k in sorted(B.kinds.items())) + "].\n"
    s += "Definition %s_symmetries : symmetries :=\n [" % name
    s += ";\n  ".join("(%s, [%s])" % (coq_name(x), "; ".join("([%s], %s)" % (";".join(map(str, P)), "true" if sg < 0 else "false") for P, sg in l)) for x, l in sorted(B.syms.items())) + "].\n\n"
    return s


def collect(prefix, fns, skip=()):
    ins, outs = {}, {}
    for m in sorted(os.listdir(tc.SRC)):
        if not m.endswith(".py") or m == "__init__.py" or m[0] != prefix or m[:-3] in skip:
            continue
        for f in tc.translate_module(m[:-3], []):
            if f.name not in fns:
                continue
            for x, k in f.ins.items():
                ins.setdefault(x, set()).add(tuple(k))
            for x, k in f.outs:
                outs.setdefault(x, set()).add(tuple(k))
    return ins, outs


def head(rules, title):
    used = set()
    for k, ls in LET.items():
        for s in ("", "a", "b") if k in "ov" else ("",):
            for i, l in enumerate(ls):
                used.add((tc.CODE[k + s] * 10 + i, l + s.upper()))
    h = "(** Generated by " + title + "  The rules are:\n\n"
    h += "".join("    " + l + "\n" if l else "\n" for l in rules.replace("\n* ", "\n- ").replace("* ", "- ", 1).rstrip().split("\n")) + "*)\n\n"
    h += """From Coq Require Import ZArith List.
From Verif Require Import CgModel CgFormSpec CgNames.
Import ListNotations.

(** Labels of indices: occupied i.., virtual a.., auxiliary P.., bosons x..; with spin iA, iB. *)
"""
    return h + "\n".join("Local Notation %s := %d%%nat (only parsing)." % (l, n) for n, l in sorted(used)) + "\n\n"


def main(path):
    fns = ("energy", "update_amps", "update_lams")
    skip = ("RCCSDwtwp", "RCCSDxTx", "RecCC", "UCCSDwtwp", "UCCSDxTx", "UecCC", "GCCSDwtwp", "GCCSDxTx", "GecCC", "GCCSDTQ")
    out = []
    R_in, R_out = collect("R", fns, skip)
    U_in, U_out = collect("U", fns, skip)
    G_in, G_out = collect("G", fns, skip)
    one = lambda s: next(iter(s)) if len(s) == 1 else (_ for _ in ()).throw(AssertionError(s))
    B = Basis()
    rows_r = [(x,) + closed_shell_input(B, x, one(k)) for x, k in sorted(R_in.items())]
    rows_u = [(x,) + closed_shell_input(B, x, one(k)) for x, k in sorted(U_in.items())]
    rows_o = []
    for x, k in sorted(U_out.items()):
        try:
            rows_o.append((x,) + closed_shell_output(B, x, one(k)))
        except KeyError:
            pass
    out.append("(** * Closed shell *)\n")
    out.append(show_basis("spatial", B))
    out.append(show_table("restricted", "The tensors of a restricted calculation.", rows_r))
    out.append(show_table("closed_shell", "The tensors of an unrestricted calculation on a closed shell, in terms of those of the restricted\n    one (cc/uebcc.py:107-175).", rows_u))
    out.append(show_table("closed_shell_results", "The results of an unrestricted function in terms of those of the restricted one.", rows_o))
    U = Basis()
    rows_u = [(x,) + unrestricted_input(U, x, one(k)) for x, k in sorted(U_in.items())]
    rows_g = [(x, ls, t) for x, k in sorted(G_in.items()) for ls, t in general_input(U, x, one(k))]
    rows_o = [(x, ls, t) for x, k in sorted(G_out.items()) for ls, t in general_output(x, one(k))]
    out.append("(** * Spin orbitals *)\n")
    out.append(show_basis("spin_blocks", U))
    out.append(show_table("unrestricted", "The tensors of an unrestricted calculation.", rows_u))
    out.append(show_table("spin_orbital", "The tensors of a general calculation in spin orbitals, in terms of those of the unrestricted one\n    (cc/gebcc.py:111-260); blocks that are not listed are zero.", rows_g))
    out.append(show_table("spin_orbital_results", "The results of a general function in terms of those of the unrestricted one.", rows_o))
    with open(path, "w") as f:
        f.write(head(__doc__[__doc__.index("* closed"):], "tools/conversion_tables.py: tables of formulas relating the tensors of restricted,\n    unrestricted and general calculations.") + "".join(out))


if __name__ == "__main__":
    main(sys.argv[1])
