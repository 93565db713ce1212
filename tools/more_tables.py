"""Write theories/CgTables2.v: further tables of formulas about the tensors of the generated functions
(names and kinds as in translate_codegen.py, notation as in conversion_tables.py):

* fitted, fitted_spin: two-electron integrals as products of density-fitting factors,
  (pq|rs) = sum_P (P|pq) (P|rs);
* same_results_R, same_results_U: every result equals the result of the same name;
* exchanged, exchanged_results: the tensors and results of an unrestricted calculation with the names alpha
  and beta exchanged;
* symmetric_R, symmetric_U, symmetric_G: each table equates every result with the one in which
  indices have been exchanged (for results with fewer symmetries, with itself): doubles of a restricted
  calculation with two electrons exchanged; restricted triples change sign when the first and last occupied, or
  the first and last virtual, orbital are exchanged; other amplitudes change sign when two occupied or two virtual indices of equal spin are exchanged;
  amplitudes of two bosons are symmetric;
* general_basis, general: the tensors of a general calculation, with antisymmetric integrals
  v_pqrs = <pq||rs>, and their symmetries.
"""
import itertools, os, sys

sys.path.insert(0, os.path.dirname(__file__))
import translate_codegen as tc
import conversion_tables as ct
from conversion_tables import Basis, labels, family, amp, strip, spin, aa, show_table, show_basis

FNS = ("energy", "update_amps", "update_lams")
SKIP = ("RCCSDwtwp", "RCCSDxTx", "RecCC", "UCCSDwtwp", "UCCSDxTx", "UecCC", "GCCSDwtwp", "GCCSDxTx", "GecCC", "GCCSDTQ")


def one(s):
    assert len(s) == 1, s
    return next(iter(s))


def fitted(name, kinds):
    ls = labels(kinds)

    def factor(p, q):
        k, l = (kinds[p], kinds[q]), (ls[p], ls[q])
        if (k[0][0], k[1][0]) == ("v", "o"):
            k, l = k[::-1], l[::-1]
        s = ("." + k[0][1:] + k[1][1:]) if k[0][1:] else ""
        return ("v%s.x%s%s" % (s, k[0][0], k[1][0]), ("P",) + l)

    return ls, [(1, [factor(0, 1), factor(2, 3)])]


SWAP = {"a": "b", "b": "a"}


def swap(c):
    return c[0] + "".join(SWAP[s] for s in c[1:])


def exchanged(B, name, kinds):
    base, sp, blk = family(name)
    k = tuple(swap(c) for c in kinds)
    ls = labels(k)
    sp2 = "".join(SWAP[s] for s in sp)
    if base == "f":
        return ls, [(1, [ct.ufock(B, k, ls)])]
    if base == "v" and len(k) == 4:
        return ls, [(1, [B.chem(k, ls, ct.uv)])]
    if base == "v":
        return ls, [(1, [("v.%s.x%s" % (k[1][1] + k[2][1], k[1][0] + k[2][0]), ls)])]
    if amp(base):
        n = amp(base)[1]
        if n == 2 and sp == "abab":
            return ls, [(1, [(name, (ls[1], ls[0], ls[3], ls[2]))])]
        return ls, [(1, [(base + "." + sp2, ls)])]
    if base == "g":
        return ls, [(1, [("g.%s.%s" % (sp2, blk), ls)])]
    if sp:
        return ls, [(1, [(base + "." + sp2, ls)])]
    return ls, [(1, [(name, ls)])]


def general_input(B, name, kinds):
    base, sp, blk = family(name)
    k, ls = tuple(kinds), labels(kinds)
    if base == "f":
        return ls, [(1, [(B.add("f.ov", ("o", "v")), ls[::-1]) if k == ("v", "o") else (B.add(name, k, [((1, 0), 1)] if k[0] == k[1] else []), ls)])]
    if base == "v":
        best = None
        for P, s in [(p, a * b) for p, a, b in (((0, 1, 2, 3), 1, 1), ((1, 0, 2, 3), -1, 1), ((0, 1, 3, 2), 1, -1), ((1, 0, 3, 2), -1, -1),
                                                 ((2, 3, 0, 1), 1, 1), ((3, 2, 0, 1), 1, -1), ((2, 3, 1, 0), -1, 1), ((3, 2, 1, 0), -1, -1))]:
            c = (tuple(k[i] for i in P), P, s)
            best = c if best is None or c < best else best
        q, P, s = best
        syms = [(Q, t) for Q, t in (((1, 0, 2, 3), -1), ((0, 1, 3, 2), -1), ((1, 0, 3, 2), 1), ((2, 3, 0, 1), 1), ((3, 2, 0, 1), -1), ((2, 3, 1, 0), -1), ((3, 2, 1, 0), 1))
                if tuple(q[i] for i in Q) == q]
        return ls, [(s, [(B.add("v." + "".join(q), q, syms), tuple(ls[i] for i in P))])]
    a = amp(base)
    if a:
        return ls, [(1, [(B.add(name, k, aa(a[1]) if a[1] > 1 else []), ls)])]
    if base == "w":
        return ls, [(1, [(B.add("w", "bb", [((1, 0), 1)]), ls)])]
    if base in ("s2", "ls2"):
        return ls, [(1, [(B.add(base, k, [((1, 0), 1)]), ls)])]
    if base in ("u12", "lu12"):
        return ls, [(1, [(B.add(base, k, [((1, 0, 2, 3), 1)]), ls)])]
    return ls, [(1, [(B.add(name, k), ls)])]


def generators(kind, name, kinds):
    """Exchanges of indices: (axes, sign)."""
    base, sp, blk = family(name)
    a = amp(base)
    b = base[:-3] if base.endswith("new") else base
    if b in ("s2", "ls2"):
        return [((1, 0), 1)]
    if b in ("u12", "lu12"):
        return [((1, 0, 2, 3), 1)]
    if not a or a[1] == 1:
        return []
    n = a[1]

    def ex(i, j, both=False, off=0):
        P = list(range(2 * n))
        P[off + i], P[off + j] = P[off + j], P[off + i]
        if both:
            P[n + i], P[n + j] = P[n + j], P[n + i]
        return tuple(P)

    if kind == "R":
        return [(ex(0, 1, True), 1)] if n == 2 else [(ex(0, 2), -1), (ex(0, 2, off=3), -1)]
    pairs = [(i, j) for i in range(n) for j in range(i + 1, n) if not sp or sp[i] == sp[j]]
    pairs = [(i, j) for i, j in pairs if not any((i, k) in pairs and (k, j) in pairs for k in range(n))]
    return [(ex(i, j, off=o), -1) for i, j in pairs for o in (0, n)]


def symmetric(kind, outs):
    tables = []
    for t in range(4):
        rows, some = [], False
        for x, k in sorted(outs.items()):
            k = one(k)
            ls = labels(k)
            g = generators(kind, x, k)
            if t < len(g):
                some = True
                rows.append((x, ls, [(g[t][1], [(x, tuple(ls[i] for i in g[t][0]))])]))
            else:
                rows.append((x, ls, [(1, [(x, ls)])]))
        if some:
            tables.append(rows)
    return tables


def show_tables(name, doc, tables):
    one = lambda rows: "[" + ";\n   ".join("(%s, (%s, [%s]))" % (ct.coq_name(x), ct.show_ls(ls), "; ".join(map(ct.show_mono, t))) for x, ls, t in rows) + "]"
    return "(** %s *)\nDefinition %s : list table :=\n [%s].\n\n" % (doc, name, ";\n  ".join(map(one, tables)))


def main(path):
    R_in, R_out = ct.collect("R", FNS, SKIP)
    U_in, U_out = ct.collect("U", FNS, SKIP)
    G_in, G_out = ct.collect("G", FNS, SKIP)
    out = []
    same = lambda outs: [(x, labels(one(k)), [(1, [(x, labels(one(k)))])]) for x, k in sorted(outs.items())]
    rows = [(x,) + fitted(x, one(k)) for x, k in sorted(R_in.items()) if family(x)[0] == "v" and len(one(k)) == 4]
    out.append(show_table("fitted", "Density-fitted integrals over spatial orbitals: (pq|rs) = sum_P (P|pq) (P|rs).", rows))
    rows = [(x,) + fitted(x, one(k)) for x, k in sorted(U_in.items()) if family(x)[0] == "v" and len(one(k)) == 4]
    out.append(show_table("fitted_spin", "The same over alpha and beta orbitals.", rows))
    out.append(show_table("same_results_R", "Results of restricted functions equal to those of the same name.", same(R_out)))
    out.append(show_table("same_results_U", "The same for unrestricted functions.", same(U_out)))
    B = Basis()
    for x, k in sorted(U_in.items()):
        ct.unrestricted_input(B, x, one(k))
    out.append(show_table("exchanged", "The tensors of an unrestricted calculation with alpha and beta exchanged.", [(x,) + exchanged(B, x, one(k)) for x, k in sorted(U_in.items())]))
    out.append(show_table("exchanged_results", "The results with alpha and beta exchanged.", [(x,) + exchanged(B, x, one(k)) for x, k in sorted(U_out.items())]))
    for kind, outs in (("R", R_out), ("U", U_out), ("G", G_out)):
        out.append(show_tables("symmetric_" + kind, "Symmetries of results.", symmetric(kind, outs)))
    G = Basis()
    rows = [(x,) + general_input(G, x, one(k)) for x, k in sorted(G_in.items())]
    out.append(show_basis("general_basis", G))
    out.append(show_table("general", "The tensors of a general calculation.", rows))
    with open(path, "w") as f:
        f.write(ct.head(__doc__[__doc__.index("* fitted"):], "tools/more_tables.py: further tables of formulas.") + "".join(out))


if __name__ == "__main__":
    main(sys.argv[1])
