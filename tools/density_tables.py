"""Writes rocq/theories/CgDensTables.v: formulas that relate density matrices.

Usage: python3 tools/density_tables.py > rocq/theories/CgDensTables.v
"""
import itertools

BLOCKS1 = ["oo", "ov", "vo", "vv"]
BLOCKS2 = "oooo ooov oovo ovoo vooo oovv ovov ovvo voov vovo vvoo ovvv vovv vvov vvvo vvvv".split()
OCC, VIR = "ijklmn", "abcdef"
BASIS = {"oooo", "ooov", "oovv", "ovov", "ovvv", "vvvv"}


def name(n, kinds, spins="", style="'"):
    """Older modules name the blocks rdm1_f_oo_aa or (triples) rdm1_f_aa_oo, newer ones rdm1.aa.oo."""
    if style == "'":
        return f"n_rdm{n}'" + (spins + "'" if spins else "") + kinds
    if style == "_":
        return f"n_rdm{n}_f_" + (spins + "_" if spins else "") + kinds
    return f"n_rdm{n}_f_{kinds}" + ("_" + spins if spins else "")


def block2(kinds, spins, ls, style):
    """A two-particle block; the restricted and unrestricted modules with bosons have them in the order (pr|qs)."""
    if style in "'_":
        return name(2, kinds, spins, style), ls
    p = [0, 2, 1, 3]
    return name(2, perm(kinds, p), spins and perm(spins, p), style), perm(ls, p)


def fmt(ls):
    return "[" + "; ".join(ls) + "]"


def labels(kinds, spins=None):
    """Distinct labels; with spins, iA.. and iB.. are counted separately."""
    cnt, out = {}, []
    for n, c in enumerate(kinds):
        s = spins[n] if spins else ""
        k = cnt.get((c, s), 0)
        cnt[(c, s)] = k + 1
        out.append((OCC if c == "o" else VIR)[k] + s.upper())
    return out


def mono(q, d, fs):
    q = "(%d)" % q if q < 0 else str(q)
    return f"mono {q} {d} [" + "; ".join(f"({x}, {fmt(l)})" for x, l in fs) + "]"


def canon(lab, kinds):
    """The antisymmetrised integral with these labels as one with a name."""
    for br, s1, s2 in itertools.product((0, 1), repeat=3):
        p = [2, 3, 0, 1] if br else [0, 1, 2, 3]
        if s1:
            p[0], p[1] = p[1], p[0]
        if s2:
            p[2], p[3] = p[3], p[2]
        kk = "".join(kinds[x] for x in p)
        if kk in BASIS:
            return (-1) ** (s1 + s2), kk, [lab[x] for x in p]
    raise ValueError(kinds)


def rec(nm, ls, monos):
    return f"({nm}, ({fmt(ls)}, [" + "; ".join(monos) + "]))"


def definition(comment, nm, typ, items, sep=";\n  "):
    print(f"(** {comment} *)\nDefinition {nm} : {typ} :=\n [" + sep.join(items) + "].\n")


def perm(seq, p):
    return type(seq)(seq[z] for z in p) if not isinstance(seq, str) else "".join(seq[z] for z in p)


print('''(** Generated by tools/density_tables.py: formulas that relate density matrices.  The names are those of the blocks which
    the functions compute before they put them together; rdm2_pqrs is <p+ q+ s r>.  Older modules have other names for the
    same blocks (rdm1_f_oo instead of rdm1.oo). *)

From Coq Require Import ZArith List.
From Verif Require Import CgModel CgFormSpec CgNames CgRelSpec.
Import ListNotations.

(** A number of electrons, c n_k + d where n_k is the number of orbitals of kind k: (c, k, d). *)
Definition factor := (Z * cls * Z)%type.

(** Labels of indices: occupied i.., virtual a..; with spin iA, iB; bosons x... *)''')
for base, s in ((0, ""), (40, "A"), (60, "B")):
    for n in range(6):
        print(f"Local Notation {OCC[n]}{s} := {base + n}%nat (only parsing).")
    for n in range(6):
        print(f"Local Notation {VIR[n]}{s} := {base + 10 + n}%nat (only parsing).")
print("Local Notation x := 30%nat (only parsing).\nLocal Notation y := 31%nat (only parsing).\n")

BOSONS = [rec("n_rdm1_b", ["x", "y"], [mono(1, 1, [("n_rdm1_b", ["x", "y"])])])] + [
    rec(f"n_dm_b_{c}", ["x"], [mono(1, 1, [(f"n_dm_b_{c}", ["x"])])]) for c in ("cre", "des")]


def spin_blocks(gs, us):
    out = []
    for kinds in BLOCKS1:
        for s in "ab":
            ls = labels(kinds, s * 2)
            out.append(rec(name(1, kinds, "", gs), ls, [mono(1, 1, [(name(1, kinds, s * 2, us), ls)])]))
    for kinds in BLOCKS2:
        for sp, p, sg, t in (("aaaa", [0, 1, 2, 3], 1, "aaaa"), ("bbbb", [0, 1, 2, 3], 1, "bbbb"), ("abab", [0, 1, 2, 3], 1, "abab"),
                             ("baba", [1, 0, 3, 2], 1, "abab"), ("abba", [0, 1, 3, 2], -1, "abab"), ("baab", [1, 0, 2, 3], -1, "abab")):
            ls = labels(kinds, sp)
            out.append(rec(name(2, kinds, "", gs), ls, [mono(sg, 1, [block2(perm(kinds, p), t, perm(ls, p), us)])]))
    return out


def nm1(b):
    return mono(1, 1, [("nm 1 " + b[0], b[1])])


def spin_sums(rs, us):
    out = []
    for kinds in BLOCKS1:
        ls = labels(kinds)
        out.append(rec(name(1, kinds, "", rs), ls, [mono(1, 1, [("nm 1 " + name(1, kinds, s * 2, us), ls)]) for s in "ab"]))
    for kinds in BLOCKS2:
        ls = labels(kinds)
        p = [1, 0, 3, 2]
        out.append(rec(*block2(kinds, "", ls, rs), [nm1(block2(kinds, t, ls, us)) for t in ("aaaa", "bbbb", "abab")] + [nm1(block2(perm(kinds, p), "abab", perm(ls, p), us))]))
    return out


definition("The density matrices of a general calculation in terms of those of the unrestricted one; blocks that do not conserve the spin are zero.",
           "spin_orbital_densities", "table", spin_blocks("'", "'"))
definition("The same in the modules for triples.", "spin_orbital_densities_t", "table", spin_blocks("_", "_"))
eb = []
for c in ("cre", "des"):
    for kinds in BLOCKS1:
        for s in "ab":
            ls = ["x"] + labels(kinds, s * 2)
            eb.append(rec(f"n_rdm_eb_{c}_{kinds}", ls, [mono(1, 1, [(f"n_rdm_eb_{c}_{kinds}_{s}{s}", ls)])]))
definition("The same with bosons.", "spin_orbital_densities_b", "table", spin_blocks("_", "_chem") + BOSONS + eb)

definition("The density matrices of a restricted calculation: those of the unrestricted one ([nm 1]), summed over spins.",
           "spin_summed_densities", "table", spin_sums("'", "'"))
definition("The same in the modules for triples.", "spin_summed_densities_t", "table", spin_sums("_", "_"))
eb = []
for c in ("cre", "des"):
    for kinds in BLOCKS1:
        ls = ["x"] + labels(kinds)
        eb.append(rec(f"n_rdm_eb_{c}_{kinds}", ls, [mono(1, 1, [(f"nm 1 n_rdm_eb_{c}_{kinds}_{s}{s}", ls)]) for s in "ab"]))
definition("The same with bosons.", "spin_summed_densities_b", "table", spin_sums("_chem", "_chem") + [t.replace("[(n_", "[(nm 1 n_") for t in BOSONS] + eb)

for nm, p, sg, com in (("creators_exchanged", [1, 0, 2, 3], -1, "Exchange of the creation operators changes the sign."),
                       ("annihilators_exchanged", [0, 1, 3, 2], -1, "Exchange of the annihilation operators changes the sign."),
                       ("particles_exchanged", [1, 0, 3, 2], 1, "Exchange of both changes nothing.")):
    out = []
    for st in "'_":
        for kinds in BLOCKS2:
            ls = labels(kinds)
            out.append(rec(name(2, kinds, "", st), ls, [mono(sg, 1, [(name(2, perm(kinds, p), "", st), perm(ls, p))])]))
    definition(com, nm, "table", out)
    out = []
    for sp in ("aaaa", "bbbb", "abab"):
        for kinds in BLOCKS2:
            ls = labels(kinds, sp)
            p1 = [0, 1, 2, 3] if sp == "abab" else p
            out.append(rec(name(2, kinds, sp), ls, [mono(1 if sp == "abab" else sg, 1, [(name(2, perm(kinds, p1), sp), perm(ls, p1))])]))
    if sg < 0:
        definition("The same for equal spins.", "unrestricted_" + nm, "table", out)



def traces(spins, st):
    kinds = {"": 0, "a": 4, "b": 6}
    S = lambda l, s: l + s.upper()
    out = []
    for s, _, k in spins:
        tr = [mono(1, 1, [("nm 1 " + name(1, c + c, s * 2, st), [S(l, s)] * 2)]) for c, l in ("oi", "va")]
        out.append("([], [%s], (%d%%Z, %d, 0%%Z), [mono 1 1 []])" % ("; ".join(tr), k, kinds[s]))
    for s, _, k in spins:
        for o, _, _ in spins:
            for p, q in BLOCKS1:
                lp = S("i" if p == "o" else "a", s)
                lq = S("j" if q == "o" else "b", s) if p == q else S("i" if q == "o" else "a", s)
                g = mono(1, 1, [("nm 1 " + name(1, p + q, s * 2, st), [lp, lq])])
                lhs = []
                for c, l in ("ol", "vd"):
                    sp, kk, ll = s + o + s + o if s else "", p + c + q + c, [lp, S(l, o), lq, S(l, o)]
                    if sp == "baba":
                        sp, kk, ll = "abab", perm(kk, [1, 0, 3, 2]), perm(ll, [1, 0, 3, 2])
                    x, ll = block2(kk, sp, ll, st)
                    lhs.append(mono(1, 1, [("nm 2 " + x, ll)]))
                out.append("(%s, [%s], (%d%%Z, %d, (%d)%%Z), %s)" % (fmt([lp, lq]), "; ".join(lhs), k, kinds[o], -1 if s == o else 0, "[" + g + "]"))
    return out


for st, suf in (("'", ""), ("_", "_old")):
    one, two = [], []
    for kinds in BLOCKS1:
        ls = labels(kinds)
        fk, fl = ("ov", ls[::-1]) if kinds == "vo" else (kinds, ls)
        one.append(mono(1, 1, [(f"nm 0 n_f'{fk}", fl), ("nm 1 " + name(1, kinds, "", st), ls)]))
        s, bk, bl = canon([ls[0], "l", ls[1], "l"], kinds[0] + "o" + kinds[1] + "o")
        one.append(mono(-s, 1, [(f"nm 0 n_v'{bk}", bl), ("nm 1 " + name(1, kinds, "", st), ls)]))
    definition("sum_pq h_pq rdm1_pq, where h_pq = f_pq - sum_l <pl||ql> is the one-electron operator.  [nm 0] are the given tensors, [nm 1] is the result of make_rdm1_f.",
               "one_body" + suf, "formula", one)
    for kinds in BLOCKS2:
        ls = labels(kinds)
        s, bk, bl = canon(ls, kinds)
        two.append(mono(s, 4, [(f"nm 0 n_v'{bk}", bl), ("nm 2 " + name(2, kinds, "", st), ls)]))
    definition("1/4 sum_pqrs <pq||rs> rdm2_pqrs.  [nm 2] is the result of make_rdm2_f.", "two_body" + suf, "formula", two)
    for k in (1, 2):
        definition("sum_p rdm1_pp = n and sum_r rdm2_prqr = (n - 1) rdm1_pq, where n is %s the number of occupied orbitals: indices, formula, factor, formula." % ("twice" if k == 2 else ""),
                   ("restricted_" if k == 2 else "") + "traces" + suf, "list (list nat * formula * factor * formula)", traces([("", "oo", k)], st))
definition("The same in the restricted modules with bosons.", "restricted_traces_chem", "list (list nat * formula * factor * formula)", traces([("", "oo", 2)], "_chem"))
definition("The same for either spin, and sum_r rdm2_prqr = n rdm1_pq where n is the number of electrons of the other spin.", "unrestricted_traces",
           "list (list nat * formula * factor * formula)", traces([("a", "aa", 1), ("b", "bb", 1)], "'"))

bos = []
for c in ("cre", "des"):
    bos.append(mono(1, 1, [("nm 0 n_G", ["x"]), (f"nm 5 n_dm_b_{c}", ["x"])]))
    bos.append(mono(-1, 1, [("nm 0 n_g'boo", ["x", "l", "l"]), (f"nm 5 n_dm_b_{c}", ["x"])]))
bos.append(mono(1, 1, [("nm 0 n_w", ["x", "y"]), ("nm 6 n_rdm1_b", ["x", "y"])]))
for kinds in BLOCKS1:
    ls = labels(kinds)
    bos.append(mono(1, 1, [(f"nm 0 n_g'b{kinds}", ["x"] + ls), (f"nm 7 n_rdm_eb_des_{kinds}", ["x"] + ls)]))
    bos.append(mono(1, 1, [(f"nm 0 n_g'b{kinds[::-1]}", ["x"] + ls[::-1]), (f"nm 7 n_rdm_eb_cre_{kinds}", ["x"] + ls)]))
definition("The part of the energy with bosons: sum_x (G_x - sum_l g_xll) <b+_x + b_x> + sum_xy w_xy <b+_x b_y> + sum_xpq g_xpq <b_x p+ q> + sum_xpq g_xqp <b+_x p+ q>.  (The"
           "\n    argument G holds the sum over occupied orbitals of the coupling, cc/rebcc.py get_mean_field_G.)  [nm 5] is the result of make_sing_b_dm, [nm 6] that of"
           "\n    make_rdm1_b, [nm 7] that of make_eb_coup_rdm.", "boson_energy", "formula", bos)
definition("The energy of the reference: sum_i f_ii - 1/2 sum_ij <ij||ij>.", "reference", "formula",
           [mono(1, 1, [("nm 0 n_f'oo", ["i", "i"])]), mono(-1, 2, [("nm 0 n_v'oooo", ["i", "j", "i", "j"])])])
definition("The energy function, [nm 3].", "correlation", "formula", [mono(1, 1, [("nm 3 n_e_cc", [])])])
definition("Multipliers times the results of update_amps, [nm 4].", "singles_part", "formula", [mono(1, 1, [("nm 0 n_l1", ["a", "i"]), ("nm 4 n_t1new", ["i", "a"])])])
definition("Each determinant counts once.", "doubles_part", "formula", [mono(1, 4, [("nm 0 n_l2", ["a", "b", "i", "j"]), ("nm 4 n_t2new", ["i", "j", "a", "b"])])])
definition("Triples.", "triples_part", "formula", [mono(1, 36, [("nm 0 n_l3", ["a", "b", "c", "i", "j", "k"]), ("nm 4 n_t3new", ["i", "j", "k", "a", "b", "c"])])])
definition("One boson.", "boson_part", "formula", [mono(1, 1, [("nm 0 n_ls1", ["x"]), ("nm 4 n_s1new", ["x"])]), mono(1, 1, [("nm 0 n_lu11", ["x", "a", "i"]), ("nm 4 n_u11new", ["x", "i", "a"])])])
definition("Two bosons.", "two_bosons_part", "formula", [mono(1, 2, [("nm 0 n_ls2", ["x", "y"]), ("nm 4 n_s2new", ["x", "y"])])])
definition("Two bosons and an excitation.", "two_bosons_single_part", "formula", [mono(1, 2, [("nm 0 n_lu12", ["x", "y", "a", "i"]), ("nm 4 n_u12new", ["x", "y", "i", "a"])])])

SPATIAL = {"oooo", "ooov", "oovv", "ovov", "ovvv", "vvvv"}
MIXED = {("aabb", k) for k in ("oooo", "ooov", "oovv", "ovoo", "ovov", "ovvv", "vvvv")} | {("bbaa", k) for k in ("oovv", "ovvv")}


def coulomb(kinds, ls, spins=None):
    """The integral (pq|rs) as one with a name."""
    for br, s1, s2 in itertools.product((0, 1), repeat=3):
        p = [0, 1, 2, 3]
        if s1:
            p[0], p[1] = p[1], p[0]
        if s2:
            p[2], p[3] = p[3], p[2]
        if br:
            p = p[2:] + p[:2]
        kk, ll = perm(kinds, p), perm(ls, p)
        if spins is None:
            if kk in SPATIAL:
                return f"nm 0 n_v'{kk}", ll
        else:
            ss = perm(spins, p)
            if (kk in SPATIAL and len(set(ss)) == 1) or (ss, kk) in MIXED:
                return f"nm 0 n_v'{ss}'{kk}", ll
    raise ValueError((kinds, spins))


for st, suf in (("'", ""), ("_", "_old"), ("_chem", "_chem")):
    one, two = [], []
    for kinds in BLOCKS1:
        p, q = ls = labels(kinds)
        fk, fl = ("ov", ls[::-1]) if kinds == "vo" else (kinds, ls)
        r1 = ("nm 1 " + name(1, kinds, "", st), ls)
        one += [mono(1, 1, [(f"nm 0 n_f'{fk}", fl), r1]), mono(-2, 1, [coulomb(kinds + "oo", [p, q, "l", "l"]), r1]),
                mono(1, 1, [coulomb(kinds[0] + "oo" + kinds[1], [p, "l", "l", q]), r1])]
    definition("The same for restricted calculations: h_pq = f_pq - sum_l [2 (pq|ll) - (pl|lq)].", "restricted_one_body" + suf, "formula", one)
    for kinds in BLOCKS2:
        ls = labels(kinds)
        p = [0, 2, 1, 3]
        x, l = block2(kinds, "", ls, st)
        two.append(mono(1, 2, [coulomb(perm(kinds, p), perm(ls, p)), ("nm 2 " + x, l)]))
    definition("1/2 sum_pqrs (pr|qs) rdm2_pqrs.", "restricted_two_body" + suf, "formula", two)
definition("2 sum_i f_ii - sum_ij [2 (ii|jj) - (ij|ji)].", "restricted_reference", "formula",
           [mono(2, 1, [("nm 0 n_f'oo", ["i", "i"])]), mono(-2, 1, [("nm 0 n_v'oooo", ["i", "i", "j", "j"])]), mono(1, 1, [("nm 0 n_v'oooo", ["i", "j", "j", "i"])])])
definition("Both spins.", "restricted_singles_part", "formula", [mono(2, 1, [("nm 0 n_l1", ["a", "i"]), ("nm 4 n_t1new", ["i", "a"])])])
definition("Both spins.", "restricted_doubles_part", "formula", [mono(2, 1, [("nm 0 n_l2", ["a", "b", "i", "j"]), ("nm 4 n_t2new", ["i", "j", "a", "b"])]),
                                                              mono(-1, 1, [("nm 0 n_l2", ["a", "b", "i", "j"]), ("nm 4 n_t2new", ["i", "j", "b", "a"])])])

one, two = [], []
for s, o in ("ab", "ba"):
    S, O = s.upper(), o.upper()
    for kinds in BLOCKS1:
        p, q = ls = labels(kinds, s * 2)
        fk, fl = ("ov", ls[::-1]) if kinds == "vo" else (kinds, ls)
        r1 = ("nm 1 " + name(1, kinds, s * 2), ls)
        one += [mono(1, 1, [(f"nm 0 n_f'{s}{s}'{fk}", fl), r1]), mono(-1, 1, [coulomb(kinds + "oo", [p, q, "l" + S, "l" + S], s * 4), r1]),
                mono(1, 1, [coulomb(kinds[0] + "oo" + kinds[1], [p, "l" + S, "l" + S, q], s * 4), r1]),
                mono(-1, 1, [coulomb(kinds + "oo", [p, q, "l" + O, "l" + O], s + s + o + o), r1])]
for kinds in BLOCKS2:
    for sp in ("aaaa", "bbbb", "abab"):
        ls = labels(kinds, sp)
        p = [0, 2, 1, 3]
        two.append(mono(1, 1 if sp == "abab" else 2, [coulomb(perm(kinds, p), perm(ls, p), perm(sp, p)), ("nm 2 " + name(2, kinds, sp), ls)]))
definition("The same for unrestricted calculations, with one-electron operators for either spin.", "unrestricted_one_body", "formula", one)
definition("1/2 sum_pqrs (pr|qs) rdm2_pqrs for equal spins and sum_pqrs (pr|qs) rdm2_pqrs for opposite spins.", "unrestricted_two_body", "formula", two)
ref = []
for s in "AB":
    ref += [mono(1, 1, [(f"nm 0 n_f'{s.lower()*2}'oo", ["i" + s, "i" + s])]), mono(-1, 2, [(f"nm 0 n_v'{s.lower()*4}'oooo", ["i" + s, "i" + s, "j" + s, "j" + s])]),
            mono(1, 2, [(f"nm 0 n_v'{s.lower()*4}'oooo", ["i" + s, "j" + s, "j" + s, "i" + s])])]
ref.append(mono(-1, 1, [("nm 0 n_v'aabb'oooo", ["iA", "iA", "iB", "iB"])]))
definition("The energy of the reference.", "unrestricted_reference", "formula", ref)
definition("Singles.", "unrestricted_singles_part", "formula", [mono(1, 1, [(f"nm 0 n_l1'{s*2}", ["a" + s.upper(), "i" + s.upper()]), (f"nm 4 n_t1new'{s*2}", ["i" + s.upper(), "a" + s.upper()])]) for s in "ab"])
dbl = []
for sp in ("aaaa", "bbbb", "abab"):
    l, t = labels("vvoo", sp), labels("oovv", sp)
    dbl.append(mono(1, 1 if sp == "abab" else 2, [(f"nm 0 n_l2'{sp}", l), (f"nm 4 n_t2new'{sp}", t)]))
definition("Doubles (equal-spin amplitudes, but not their residuals, are stored with a factor 1/2).", "unrestricted_doubles_part", "formula", dbl)
