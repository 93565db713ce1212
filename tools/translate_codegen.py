"""Translate ebcc/codegen/*.py into Gallina programs (theories/CgNames.v and theories/Cg_*.v).

The source is read as text and parsed with `ast`; nothing is executed.  One Python statement becomes one
Gallina statement, preceded by its line number.  Statements that only build a Namespace, and the final
assembly of density matrices from their blocks (np.block, pack_2e, np.array), are not translated: the
blocks themselves are taken as the results.  A function containing anything else that is not in the
grammar of CgModel.v is skipped and listed on stdout.
"""
import ast, os, re, sys
from fractions import Fraction

SRC = "/repo/ebcc/codegen"
CODE = {"o": 0, "v": 1, "x": 2, "b": 3, "oa": 4, "va": 5, "ob": 6, "vb": 7, "O": 8, "V": 9,
        "Oa": 10, "Va": 11, "Ob": 12, "Vb": 13}


# arguments whose axes are all active
ACTIVE = {}
for _m in ("GecCC", "RecCC", "UecCC"):
    for _f in ("update_amps_external", "update_amps_mixed"):
        ACTIVE[_m, _f] = ("t3", "t4", "t4a")
for _m in ("GCCSDwtwp", "RCCSDwtwp", "UCCSDwtwp"):
    for _f in ("energy", "update_amps"):
        ACTIVE[_m, _f] = ("t3",)


# t2 of an unrestricted method has blocks aaaa, abab, bbbb only (cc/uebcc.py)
MISSING = {("UDFCCD", "make_rdm1_f", "t2.aa")}


class Skip(Exception):
    pass


class Bad(Exception):
    pass


class Missing(Exception):
    pass


def dotted(n):
    if isinstance(n, ast.Name):
        return n.id
    if isinstance(n, ast.Attribute):
        return dotted(n.value) + "." + n.attr
    raise Skip("not a name: " + ast.unparse(n))


def ranks(name):
    """Axes of an amplitude-like array by its base name, as (bosons, creation-first, rank)."""
    m = re.fullmatch(r"([tc])(\d)a?", name)
    if m:
        return "o" * int(m[2]) + "v" * int(m[2])
    m = re.fullmatch(r"l(\d)", name)
    if m:
        return "v" * int(m[1]) + "o" * int(m[1])
    m = re.fullmatch(r"(l?)s(\d)", name)
    if m:
        return "b" * int(m[2])
    m = re.fullmatch(r"u(\d)(\d)", name)
    if m:
        return "b" * int(m[2]) + "o" * int(m[1]) + "v" * int(m[1])
    m = re.fullmatch(r"lu(\d)(\d)", name)
    if m:
        return "b" * int(m[2]) + "v" * int(m[1]) + "o" * int(m[1])
    return None


def spins(letters, spin):
    """Attach spins to the letters; boson and auxiliary axes carry none."""
    out, k = [], 0
    for c in letters:
        if c in "xb":
            out.append(c)
        elif k >= len(spin):
            raise Skip("spin mismatch %s %s" % (letters, spin))
        else:
            out.append(c + spin[k])
            k += 1
    if k != len(spin):
        raise Skip("spin mismatch %s %s" % (letters, spin))
    return tuple(out)


def input_type(name, fname, mod=None):
    """Kinds of the axes of a keyword argument, from its name."""
    p = name.split(".")
    if p[0] == "w" and len(p) == 1:
        return ("b", "b")
    if p[0] == "G" and len(p) == 1:
        return ("b",)
    if p[0] in ("f", "v", "g", "gc"):
        if len(p) == 2:
            return tuple(p[1])
        if len(p) == 3:
            sp = p[1]
            fer = [c for c in p[2] if c not in "xb"]
            if p[0] == "v" and "x" in p[2]:
                return spins(p[2], sp[-2:])      # UCDERIs drop a leading character (ham/cderis.py:90-91)
            return spins(p[2], sp)
    if p[0] in ("r1", "r2", "r3"):
        n = int(p[0][1])
        kind = fname.split("matvec_")[1][:2]
        left = "lmatvec" in fname
        let = {"ip": "o" * n + "v" * (n - 1), "ea": "v" * n + "o" * (n - 1), "ee": "o" * n + "v" * n}[kind]
        return tuple(let) if len(p) == 1 else spins(let, p[1])
    m = re.fullmatch(r"t(\d)(?:_([ab]+))?_([oOvV]+)", p[0])      # active-space slices
    if m and len(p) == 1:
        return tuple(m[3]) if not m[2] else spins(m[3], m[2])
    r = ranks(p[0])
    if r is not None and p[0] in ACTIVE.get((mod, fname), ()):
        r = r.upper()
    if r is not None:
        return tuple(r) if len(p) == 1 else spins(r, p[1])
    raise Skip("unknown input " + name)


def output_type(name, fname, mod, ty):
    """Kinds of the axes a result must have, from its name; falls back to the inferred ones."""
    p = name.split(".")
    if p[0] in ("e_cc", "e_mp", "e_pert"):
        return ()
    m = re.fullmatch(r"((?:[tlrsu]|lu|ls)\d+)new", p[0])
    if m and len(p) > 1 and re.fullmatch("[oOvV]+", p[-1]):
        return tuple(p[1]) if len(p) == 2 else spins(p[2], p[1])
    if m:
        return input_type(".".join([m[1]] + p[1:]), fname, mod)
    m = re.fullmatch(r"t\dnew_([oOvV]+)", p[0])
    if m:
        return tuple(m[1])
    m = re.fullmatch(r"[tc]\d", p[0])
    if m:
        return input_type(name, fname, mod)
    if p[0] in ("rdm1", "rdm2"):
        if len(p) == 2:
            return tuple(p[1])
        if len(p) == 3:
            return spins(p[2], p[1])
    return ty


class Fn:
    def __init__(self, mod, node, ints=None):
        self.mod, self.node, self.name = mod, node, node.name
        self.ints = ints or {}
        self.ins = {}
        self.ty = {}
        self.body = []
        self.out = []
        self.note = []
        self.args = [a.arg for a in node.args.args]
        self.done = False
        self.views = {}     # name -> name of the array it may be a view of
        self.spaces = set()  # the Namespaces created so far

    def ref(self, name):
        """Type of a name that is read."""
        if name in self.ty:
            return self.ty[name]
        if name.startswith("ints."):
            if name[5:] not in self.ints:
                raise Bad("missing intermediate " + name)
            t = self.ints[name[5:]]
        else:
            base = name.split(".")[0]
            if base not in self.args and not re.match(r"t\d(_[ab]+)?_[oOvV]+$", base):
                raise Bad("unbound %s" % name)
            t = input_type(name, self.name, self.mod)
        self.ins[name] = t
        self.ty[name] = t
        return t

    def dim(self, n):
        s = ast.unparse(n)
        tab = {"nocc": "o", "nvir": "v", "naux": "x", "nbos": "b", "nocc[0]": "oa", "nocc[1]": "ob", "nvir[0]": "va", "nvir[1]": "vb",
               "naocc": "O", "navir": "V", "naocc[0]": "Oa", "naocc[1]": "Ob", "navir[0]": "Va", "navir[1]": "Vb"}
        if s in tab:
            return tab[s]
        m = re.fullmatch(r"(.+)\.shape\[(-?\d+)\]", s)
        if m:
            if (self.mod, self.name, m[1]) in MISSING:
                raise Missing(m[1])
            return self.ref(m[1])[int(m[2])]
        raise Skip("dimension " + s)

    def rhs(self, n):
        """Returns (Gallina, type)."""
        if isinstance(n, (ast.Name, ast.Attribute)):
            x = dotted(n)
            return ("Copy", x), self.ref(x)
        if isinstance(n, ast.Constant) and n.value == 0:
            return ("Zeros", ()), ()
        if not isinstance(n, ast.Call):
            raise Skip("expression " + ast.unparse(n)[:60])
        f = ast.unparse(n.func)
        if f == "np.copy":
            return self.rhs(n.args[0])
        if f == "np.transpose":
            x = dotted(n.args[0])
            t = self.ref(x)
            ax = tuple(ast.literal_eval(n.args[1]))
            if sorted(ax) != list(range(len(t))):
                raise Bad("axes")
            return ("Transpose", x, ax), tuple(t[k] for k in ax)
        if f == "np.zeros":
            a = n.args[0]
            dims = a.elts if isinstance(a, (ast.Tuple, ast.List)) else [a]
            t = tuple(self.dim(d) for d in dims)
            return ("Zeros", t), t
        if f == "np.eye":
            c = self.dim(n.args[0])
            return ("Eye", c), (c, c)
        if f == "einsum":
            a = n.args
            kws = [k.arg for k in n.keywords]
            if any(k != "optimize" for k in kws):
                raise Skip("keywords")
            if isinstance(a[0], ast.Constant):
                lhs, out = a[0].value.split("->")
                subs = lhs.split(",")
                num = {}
                for c in lhs + out:
                    if c != ",":
                        num.setdefault(c, len(num))
                ops = [(dotted(x), tuple(num[c] for c in s)) for x, s in zip(a[1:], subs)]
                if len(ops) != len(a) - 1 or len(subs) != len(ops):
                    raise Bad("operands")
                out = tuple(num[c] for c in out)
            else:
                ops = [(dotted(a[i]), tuple(ast.literal_eval(a[i + 1]))) for i in range(0, len(a) - 1, 2)]
                if len(a) % 2 != 1:
                    raise Skip("implicit output")
                out = tuple(ast.literal_eval(a[-1]))
            lab = {}
            for x, ls in ops:
                t = self.ref(x)
                if len(t) != len(ls):
                    raise Bad("rank of %s in %s" % (x, ast.unparse(n)))
                for l, c in zip(ls, t):
                    if lab.setdefault(l, c) != c:
                        raise Bad("label %d: %s vs %s in %s" % (l, lab[l], c, ast.unparse(n)))
            return ("Einsum", ops, out), tuple(lab[l] for l in out)
        raise Skip("call " + f)

    def lit(self, n):
        s = ast.unparse(n).replace(" ", "")
        if not re.fullmatch(r"-?[0-9.]+(e-?[0-9]+)?", s):
            raise Skip("literal " + s)
        return Fraction(s)

    def expr(self, n):
        if isinstance(n, ast.BinOp) and isinstance(n.op, ast.Mult):
            r, t = self.rhs(n.left)
            return (r, self.lit(n.right)), t
        r, t = self.rhs(n)
        return (r, None), t

    def translate(self):
        nodes = self.node.body
        for i, s in enumerate(nodes):
            self.stmt(s, nodes[i + 1:])
            if self.done:
                break
        return self

    def stmt(self, s, rest):
        ln = s.lineno
        if isinstance(s, ast.Expr) and isinstance(s.value, ast.Constant):
            return
        if isinstance(s, ast.Assign):
            tgt = s.targets[0]
            src = ast.unparse(s)
            if re.fullmatch(r"[\w.]+ = Namespace\(\)", src):
                self.spaces.add(dotted(tgt))
            if re.fullmatch(r"ints = kwargs\['ints'\]", src) or re.fullmatch(r"\w+ = Namespace\(\)", src) or re.fullmatch(r"\w+\.\w+ = Namespace\(\)", src):
                return
            if isinstance(s.value, ast.Call) and ast.unparse(s.value.func) == "Namespace":
                if getattr(self, "assembled", False) and all(re.fullmatch(r"np\.transpose\(rdm2\.\w+, \(0, 2, 1, 3\)\)", ast.unparse(k.value)) for k in s.value.keywords):
                    return
                self.namespace(dotted(tgt), s.value, ln)
                return
            if self.mod.endswith("wtwp") and (src.startswith("space = kwargs") or re.match(r"s[oOvV][ab]? = ", src) or re.match(r"n(a?)(occ|vir) = ", src)):
                return
            m = re.fullmatch(r"(t\d(?:_[ab]+)?_([oOvV]+)) = np\.copy\((.+)\[np\.ix_\((.+)\)\]\)", src)
            if m:
                if [c.strip()[1] for c in m[4].split(",")] != list(m[2]):
                    raise Bad("slice " + src)
                self.note_once("active-space slices of the amplitudes are arguments")
                return
            if isinstance(s.value, ast.Call) and ast.unparse(s.value.func) in ("np.block", "pack_2e", "np.array"):
                # final assembly: the blocks are the results
                for n in ast.walk(s.value):
                    if isinstance(n, ast.Attribute) or (isinstance(n, ast.Name) and n.id.startswith(("rdm", "dm_"))):
                        try:
                            x = dotted(n)
                        except Skip:
                            continue
                        if x not in self.ty and x.split(".")[0] in self.spaces and not any(y.startswith(x + ".") for y in self.ty):
                            raise Bad("assembly of %s, which is not assigned" % x)
                        if x in self.ty and x not in self.out and x not in self.ins:
                            self.out.append(x)
                self.note.append("assembly (line %d) not translated" % ln)
                self.assembled = True
                return
            x = dotted(tgt)
            if getattr(self, "assembled", False):
                if isinstance(s.value, (ast.Name, ast.Attribute)) or re.fullmatch(r"rdm2_f_aabb = np\.transpose\(rdm2_f_abab, \(0, 2, 1, 3\)\)", src):
                    return
                if re.fullmatch(r"(\w+) = np\.transpose\(\1, \(0, 2, 1, 3\)\)", src):
                    return
                raise Skip("after assembly: " + src[:60])
            if isinstance(s.value, (ast.Name, ast.Attribute)):
                y = dotted(s.value)
                later = [dotted(r.target) for r in rest if isinstance(r, ast.AugAssign)]
                if x in later or y in later:
                    raise Skip("alias modified later: " + src)
                if y in self.ty and y not in self.ins:
                    e, t = self.expr(s.value)
                else:
                    raise Skip("alias " + src)
                self.assign(x, e, t, ln)
                return
            try:
                e, t = self.expr(s.value)
            except Missing as ex:
                # the statement raises on every call: read the missing name and stop
                self.missing(x, ex.args[0], "no caller provides", ln)
                return
            if "." in x and x.rsplit(".", 1)[0] not in self.spaces:
                # the same for an attribute of a Namespace which was never created
                self.missing(x, x.rsplit(".", 1)[0], "was never assigned", ln)
                return
            self.assign(x, e, t, ln)
            y = self.view_of(s.value)
            if y is not None:
                self.views[x] = y
        elif isinstance(s, ast.AugAssign):
            m = re.fullmatch(r"(t\dnew) \+= _inflate\(\1\.shape, np\.ix_\(.*\), (\1_[oOvV]+)\)", ast.unparse(s))
            if m:
                for x in (m[1], m[2]):
                    if x not in self.out:
                        self.out.append(x)
                self.note_once("adding the active-space parts of the results to them is not translated")
                self.assembled = True
                return
            if getattr(self, "assembled", False):
                raise Skip("after assembly: " + ast.unparse(s)[:60])
            x = dotted(s.target)
            op = {"Add": "AddTo", "Sub": "SubFrom"}.get(type(s.op).__name__)
            if op is None:
                raise Skip("operator")
            e, t = self.expr(s.value)
            if x not in self.ty:
                raise Bad("unbound target " + x)
            if x in self.ins:
                raise Skip("modifies argument " + x)
            if any(y != x and y in self.ty and self.base(y) == self.base(x) for y in list(self.views) + list(self.ty)):
                raise Bad("line %d: %s may be a view" % (ln, x))
            if self.ty[x] != t:
                raise Bad("line %d: shape of %s: %s vs %s" % (ln, x, self.ty[x], t))
            self.body.append((ln, op, x, e))
        elif isinstance(s, ast.Delete):
            for tg in s.targets:
                x = dotted(tg)
                known = [y for y in self.ty if y == x or y.startswith(x + ".")]
                if x.startswith("ints."):
                    self.ref(x); known = [x]
                for y in known:
                    if y in self.ins and not y.startswith("ints."):
                        raise Bad("deletes argument")
                    self.body.append((ln, "Del", y, None))
                    del self.ty[y]
                if not known:
                    raise Bad("del of unbound " + x)
        elif isinstance(s, ast.Return):
            v = s.value
            names = []
            if isinstance(v, ast.Dict):
                for k, e in zip(v.keys, v.values):
                    key = ast.unparse(k)
                    key = re.sub(r"^f?['\"]|['\"]$", "", key)
                    names.append((key, dotted(e)))
            else:
                names = [(None, dotted(v))]
            if self.out and self.mod.endswith("wtwp"):
                self.out += [x for _, x in names if x not in self.out]
            if not self.out:
                for key, x in names:
                    if x in self.ty:
                        self.out.append(x)
                    else:
                        sub = [y for y in self.ty if y.startswith(x + ".") and y not in self.ins]
                        if not sub:
                            raise Bad("unbound result " + x)
                        self.out += sub
            self.retkeys = names
            self.done = True
        else:
            raise Skip("statement " + type(s).__name__)

    def note_once(self, s):
        if s not in self.note:
            self.note.append(s)

    def namespace(self, x, call, ln):
        self.spaces.add(x)
        for k in call.keywords:
            y = x + "." + k.arg
            if isinstance(k.value, ast.Call) and ast.unparse(k.value.func) == "Namespace":
                self.namespace(y, k.value, ln)
            else:
                e, t = self.expr(k.value)
                self.assign(y, e, t, ln)

    def view_of(self, n):
        """The array of which the value of an expression may be a view, if any."""
        if isinstance(n, (ast.Name, ast.Attribute)):
            return dotted(n)
        if isinstance(n, ast.Call):
            f = ast.unparse(n.func)
            if f == "np.transpose":
                return self.view_of(n.args[0])
            if f == "einsum":
                nops = len(n.args) - 1 if isinstance(n.args[0], ast.Constant) else (len(n.args) - 1) // 2
                if nops == 1:
                    return self.view_of(n.args[1 if isinstance(n.args[0], ast.Constant) else 0])
        return None

    def base(self, x):
        while x in self.views:
            x = self.views[x]
        return x

    def missing(self, x, y, why, ln):
        self.assign(x, (("Copy", y), None), (), ln)
        self.note.append("line %d reads %s, which %s" % (ln, y, why))
        self.out, self.done, self.retkeys, self.fails = [], True, [], True

    def assign(self, x, e, t, ln):
        if x in self.ins:
            raise Skip("rebinds argument " + x)
        if x.startswith("ints."):
            raise Skip("assigns " + x)
        self.views.pop(x, None)
        self.ty[x] = t
        self.body.append((ln, "Assign", x, e))


class Names:
    def __init__(self):
        self.ids = {}

    def coq(self, name):
        m = re.fullmatch(r"(?:tmp|x)(\d+)", name)
        if m:
            return "T %d" % (int(m[1]) + 1)
        m = re.fullmatch(r"ints\.(?:tmp|x)(\d+)", name)
        if m:
            return "IT %d" % (int(m[1]) + 1)
        self.ids.setdefault(name, len(self.ids) + 1)
        return "n_" + name.replace(".", "'")


def nl(l):
    return "[" + ";".join(map(str, l)) + "]"


def par(s):
    return "(" + s + ")" if " " in s else s


def cl(t):
    return nl(CODE[c] for c in t)


def show_rhs(r, N):
    if r[0] == "Einsum":
        return "Einsum [" + "; ".join("(%s,%s)" % (N.coq(x), nl(ls)) for x, ls in r[1]) + "] " + nl(r[2])
    if r[0] == "Transpose":
        return "Transpose %s %s" % (par(N.coq(r[1])), nl(r[2]))
    if r[0] == "Copy":
        return "Copy " + par(N.coq(r[1]))
    if r[0] == "Zeros":
        return "Zeros " + cl(r[1])
    if r[0] == "Eye":
        return "Eye %d" % CODE[r[1]]


def show_stmt(st, N):
    ln, op, x, e = st
    if op == "Del":
        return "(*%d*) Del %s" % (ln, par(N.coq(x)))
    r, c = e
    if c is None or c == 1:
        ex = "Plain (%s)" % show_rhs(r, N)
    else:
        ex = "Times (%s) (%d) %d" % (show_rhs(r, N), c.numerator, c.denominator)
    return "(*%d*) %s %s (%s)" % (ln, op, par(N.coq(x)), ex)


def translate_module(mod, report):
    tree = ast.parse(open(os.path.join(SRC, mod + ".py")).read())
    fns = []
    ints = {}
    for node in tree.body:
        if not isinstance(node, ast.FunctionDef):
            continue
        try:
            base = node.name
            f = Fn(mod, node, ints.get(base)).translate()
            if base.endswith("_intermediates"):
                ints[base[:-len("_intermediates")]] = {k: f.ty[x] for (k, x) in f.retkeys}
            outs = []
            for x in f.out:
                want = output_type(x, base, mod, f.ty[x])
                if want != f.ty[x]:
                    raise Bad("result %s has axes %s, expected %s" % (x, f.ty[x], want))
                outs.append((x, want))
            f.outs = outs
            fns.append(f)
        except (Skip, Bad) as ex:
            report.append("%s.%s:%d %s: %s" % (mod, node.name, node.lineno, type(ex).__name__, ex))
    return fns


HEADER = """(** Generated by tools/translate_codegen.py from ebcc/codegen/%s.py; one statement per source line
    (the number in the comment before it). *)
From Coq Require Import ZArith List.
From Verif Require Import CgModel CgNames.
Import ListNotations.

"""


def main(mods, outdir):
    N = Names()
    report = []
    files = []
    index = []
    for mod in mods:
        fns = translate_module(mod, report)
        txt = HEADER % mod
        for f in fns:
            end = f.node.end_lineno
            txt += "(** ebcc/codegen/%s.py:%d-%d [%s]%s *)\n" % (mod, f.node.lineno, end, f.name, "; " + "; ".join(f.note) if f.note else "")
            txt += "Definition %s_%s : prog := mkprog\n [%s]\n [%s]\n [%s].\n\n" % (
                mod, f.name,
                "; ".join("(%s,%s)" % (N.coq(x), cl(t)) for x, t in f.ins.items()),
                ";\n  ".join(show_stmt(s, N) for s in f.body),
                "; ".join("(%s,%s)" % (N.coq(x), cl(t)) for x, t in f.outs))
            index.append((mod, f.name, getattr(f, "fails", False)))
        files.append((mod, txt))
    if outdir:
        for mod, txt in files:
            open(os.path.join(outdir, "Cg_%s.v" % mod), "w").write(txt)
        with open(os.path.join(outdir, "CgNames.v"), "w") as fh:
            fh.write("(** Generated by tools/translate_codegen.py: the names of arguments, intermediates and results of the\n"
                     "    generated functions. [T n] is tmp(n-1) (or x(n-1)), [IT n] is ints.tmp(n-1). *)\n"
                     "From Coq Require Import PArith.\nFrom Verif Require Import CgModel.\n\n"
                     "Definition T (n : positive) : ref := xI (xO n).\nDefinition IT (n : positive) : ref := xI (xI n).\n")
            for name, k in N.ids.items():
                fh.write("Definition n_%s : ref := xO %d. (* %s *)\n" % (name.replace(".", "'"), k, name))
        with open(os.path.join(outdir, "CgAll.v"), "w") as fh:
            fh.write("(** Generated by tools/translate_codegen.py: the list of all translated functions. *)\n"
                     "From Coq Require Import List String.\nFrom Verif Require Import CgModel.\n")
            for mod, _ in files:
                fh.write("From Verif Require Cg_%s.\n" % mod)
            fh.write("Import ListNotations.\nLocal Open Scope string_scope.\n\n")
            for mod, _ in files:
                fh.write("Definition all_%s : list (string * prog) :=\n  [%s].\n" % (mod, ";\n   ".join(
                    '("%s.%s", Cg_%s.%s_%s)' % (m, f, m, m, f) for m, f, bad in index if m == mod and not bad)))
            fh.write("\n(** Every translated function, with its name, except those which always fail. *)\n"
                     "Definition generated : list (string * prog) :=\n  %s.\n" % "\n  ++ ".join("all_" + mod for mod, _ in files))
        with open(os.path.join(outdir, "cg_skipped.txt"), "w") as fh:
            fh.write("".join(r + "\n" for r in report))
    return files, index, report, N


if __name__ == "__main__":
    outdir = sys.argv[1] if sys.argv[1] != "-" else None
    mods = sys.argv[2:] or sorted(f[:-3] for f in os.listdir(SRC) if f.endswith(".py") and f != "__init__.py")
    files, index, report, N = main(mods, outdir)
    for r in report:
        print(r)
    print(len(index), "functions;", sum(len(t) for _, t in files), "bytes;", len(N.ids), "names")
