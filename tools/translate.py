#!/usr/bin/env python3
"""Translate the numeric modules of pyXSteam (read as text, never executed) to Gallina.

usage: translate.py REPO OUTDIR

Every Python function becomes one Gallina definition over an abstract
arithmetic (class Num of Py.v), with the source lines in a comment.  Tables of
coefficients become separate definitions, one per function, so that the copies
in the source stay separate copies in the model.

What is dropped: docstrings, logging calls, step_counter (only ever logged).
What is changed: a `for i in range(a, b)` over tables becomes a fold over the
zipped tables (the script checks that the tables are long enough, so no
IndexError is possible there); `while` gets fuel.
"""
import ast
import sys
import os

REPO, OUT = sys.argv[1], sys.argv[2]
INT_VARS = {"sub_reg", "region_pT_number", "region"}
SKIP_VARS = {"step_counter", "logger"}
UNIT_METHODS = {}


def segment(src, node, cache={}):
    """text of a literal, which never spans lines"""
    if src not in cache:
        cache[src] = src.encode().split(b"\n")
    assert node.lineno == node.end_lineno
    return cache[src][node.lineno - 1][node.col_offset:node.end_col_offset].decode()


class Fn:
    """translation state of one function"""

    def __init__(self, mod, node, src, prefix, params, ret_int):
        self.mod, self.node, self.src = mod, node, src
        self.name = prefix + node.name
        self.n = 0
        self.tables = []  # (coqname, kind, text, l0, l1)
        self.tnames = {}
        self.ret_int = ret_int

    def fresh(self):
        self.n += 1
        return "q%d" % self.n


def lit_text(node):
    """source text of a numeric literal, including sign, or None"""
    neg = ""
    if isinstance(node, ast.UnaryOp) and isinstance(node.op, ast.USub):
        if isinstance(node.operand, ast.Constant):
            neg, node = "-", node.operand
    if isinstance(node, ast.Constant) and isinstance(node.value, (int, float)) and not isinstance(node.value, bool):
        return neg, node
    return None


def numtext(fn, node):
    neg, c = lit_text(node)
    t = segment(fn.src, c)
    assert t is not None
    return neg + t


def paren(t):
    if t.replace("_", "").replace(".", "").replace("#", "").isalnum():
        return t
    if t.startswith("(") and t.endswith(")"):
        d = 0
        for i, ch in enumerate(t):
            d += ch == "("
            d -= ch == ")"
            if d == 0 and i < len(t) - 1:
                break
        else:
            return t
    return "(" + t + ")"


def is_logging(st):
    return isinstance(st, ast.Expr) and (
        isinstance(st.value, ast.Constant)
        or (isinstance(st.value, ast.Call) and "logger" in ast.dump(st.value.func))
    )


def clean(stmts):
    out = []
    for s in stmts:
        if is_logging(s):
            continue
        if isinstance(s, (ast.Assign, ast.AugAssign)):
            t = s.targets[0] if isinstance(s, ast.Assign) else s.target
            if isinstance(t, ast.Name) and t.id in SKIP_VARS:
                continue
        out.append(s)
    return out


def always_exits(stmts):
    for s in clean(stmts):
        if isinstance(s, (ast.Return, ast.Raise)):
            return True
        if isinstance(s, ast.If) and s.orelse and always_exits(s.body) and always_exits(s.orelse):
            return True
    return False


def has_return(stmts):
    return any(isinstance(x, (ast.Return, ast.Raise)) for s in stmts for x in ast.walk(s))


def has_break(stmts):
    return any(isinstance(x, ast.Break) for s in stmts for x in ast.walk(s))


def assigned(stmts):
    out = []
    for s in clean(stmts):
        for x in ast.walk(s):
            t = None
            if isinstance(x, ast.Assign):
                t = x.targets[0]
            elif isinstance(x, ast.AugAssign):
                t = x.target
            if isinstance(t, ast.Name) and t.id not in out and t.id not in SKIP_VARS:
                out.append(t.id)
    return out


def loaded(stmts):
    """names possibly read by stmts before being assigned in them (approx.: all reads)"""
    return {x.id for s in clean(stmts) if not is_logging(s)
            for x in walk_nolog(s) if isinstance(x, ast.Name) and isinstance(x.ctx, ast.Load)} | {
        x.target.id for s in stmts for x in ast.walk(s) if isinstance(x, ast.AugAssign) and isinstance(x.target, ast.Name)}


def walk_nolog(s):
    if is_logging(s):
        return
    yield s
    for c in ast.iter_child_nodes(s):
        yield from walk_nolog(c)


def reads_before_write(stmts, var):
    """True if var may be read in stmts before it is (definitely) assigned"""
    for s in clean(stmts):
        if isinstance(s, ast.Assign):
            if any(isinstance(x, ast.Name) and x.id == var for x in ast.walk(s.value)):
                return True
            if isinstance(s.targets[0], ast.Name) and s.targets[0].id == var:
                return False
        elif isinstance(s, ast.While):
            if any(isinstance(x, ast.Name) and x.id == var for x in ast.walk(s.test)):
                return True
            if reads_before_write(s.body, var):
                return True
        elif isinstance(s, ast.If):
            if any(isinstance(x, ast.Name) and x.id == var for x in ast.walk(s.test)):
                return True
            if reads_before_write(s.body, var) or reads_before_write(s.orelse, var):
                return True
            if var in assigned(s.body) and s.orelse and var in assigned(s.orelse):
                return False
        else:
            if any(isinstance(x, ast.Name) and x.id == var and isinstance(x.ctx, ast.Load) for x in walk_nolog(s)):
                return True
            if isinstance(s, ast.AugAssign) and s.target.id == var:
                return True
    return False


class T:
    def __init__(self, fn, modinfo):
        self.fn = fn
        self.mi = modinfo

    # ---- expressions -------------------------------------------------
    # returns (binds, text, kind); kind in num,int
    def expr(self, e, env):
        fn = self.fn
        lt = lit_text(e)
        if lt is not None:
            neg, c = lt
            if isinstance(c.value, int):
                return [], neg + str(c.value), "intlit"
            return [], "#" + self.declit(e), "num"
        if isinstance(e, ast.Constant) and isinstance(e.value, str):
            raise Exception("string")
        if isinstance(e, ast.Name):
            if e.id in env.get("__subst__", {}):
                return [], *env["__subst__"][e.id]
            k = env[e.id]
            if k == "opt":
                v = fn.fresh()
                return [(v, "local %s" % e.id)], v, "num"
            return [], e.id, k
        if isinstance(e, ast.Attribute):
            s = ast.unparse(e)
            if s.startswith("Constants.__"):
                return [], s[len("Constants.__"):].rstrip("_"), "num"
            raise Exception("attr " + s)
        if isinstance(e, ast.UnaryOp) and isinstance(e.op, ast.USub):
            b, t, k = self.expr(e.operand, env)
            t = self.tonum(t, k)
            return b, "(- %s)" % paren(t), "num"
        if isinstance(e, ast.BinOp):
            bl, tl, kl = self.expr(e.left, env)
            br, tr, kr = self.expr(e.right, env)
            ints = ("int", "intlit")
            op = type(e.op).__name__
            if op in ("Add", "Sub", "Mult") and kl in ints and kr in ints:
                if kl == kr == "intlit":
                    # int arithmetic on literals, value used as a number
                    pass
                o = {"Add": "+", "Sub": "-", "Mult": "*"}[op]
                return bl + br, "(%s %s %s)%%Z" % (tl, o, tr), "int"
            if op in ("Add", "Sub", "Mult"):
                o = {"Add": "+", "Sub": "-", "Mult": "*"}[op]
                tl, tr = self.tonum(tl, kl), self.tonum(tr, kr)
                l = tl if (op == "Mult" and self.lvl(tl) <= 1) or (op != "Mult" and self.lvl(tl) <= 2) else paren(tl)
                r = tr if (op == "Mult" and self.lvl(tr) == 0) or (op != "Mult" and self.lvl(tr) <= 1) else paren(tr)
                return bl + br, "%s %s %s" % (l, o, r), "num"
            if op == "Div":
                tl, tr = self.tonum(tl, kl), self.tonum(tr, kr)
                v = fn.fresh()
                return bl + br + [(v, "div %s %s" % (paren(tl), paren(tr)))], v, "num"
            if op == "Pow":
                tl = self.tonum(tl, kl)
                v = fn.fresh()
                if kr in ints:
                    x = tr if kr == "int" else ("(%s)" % tr if tr.startswith("-") else tr)
                    return bl + br + [(v, "powz %s %s" % (paren(tl), paren(x)))], v, "num"
                return bl + br + [(v, "powf %s %s" % (paren(tl), paren(tr)))], v, "num"
            raise Exception(op)
        if isinstance(e, ast.Subscript):
            return self.subscript(e, env)
        if isinstance(e, ast.Call):
            return self.call(e, env)
        raise Exception(ast.dump(e))

    @staticmethod
    def lvl(t):
        """0 atom, 1 product, 2 sum (top-level operators of the text)"""
        d = 0
        lv = 0
        toks = []
        cur = ""
        for ch in t:
            if ch in "([":
                d += 1
            if ch in ")]":
                d -= 1
            if d == 0 and ch == " ":
                toks.append(cur)
                cur = ""
            else:
                cur += ch
        toks.append(cur)
        for x in toks:
            if x in ("+", "-"):
                lv = 2
            elif x == "*" and lv < 2:
                lv = 1
        if lv == 0 and len(toks) > 1:
            lv = 1  # application: binds tighter, keep parens in products
            return 0 if t.startswith("(") else 0
        return lv

    def declit(self, e):
        t = numtext(self.fn, e)
        return "(%s)" % t if t.startswith("-") else t

    def tonum(self, t, k):
        if k == "intlit":
            return "#(%s)" % t if t.startswith("-") else "#" + t
        if k == "int":
            return "int %s" % paren(t)
        return t

    def subscript(self, e, env):
        idx = e.slice
        base = e.value
        if isinstance(base, ast.Subscript):  # B[j][i]
            b, t, k = self.subscript(base, env)
            assert k == "row"
            bi, ti, ki = self.expr(idx, env)
            v = self.fn.fresh()
            return b + bi + [(v, "item %s %s" % (t, ti))], "lit %s" % v, "num"
        name = base.id
        kind = env[name]
        assert kind.startswith("tab:"), name
        if isinstance(idx, ast.Name) and (name, idx.id) in env.get("__elem__", {}):
            el = env["__elem__"][(name, idx.id)]
            return [], *el
        coq = kind.split(":")[2]
        bi, ti, ki = self.expr(idx, env)
        v = self.fn.fresh()
        assert kind.split(":")[1] == "dec"
        return bi + [(v, "item %s %s" % (coq, ti))], "(lit %s)" % v, "num"

    def call(self, e, env):
        fn = self.fn
        f = ast.unparse(e.func)
        if f == "float":
            a = e.args[0]
            if isinstance(a, ast.Constant) and a.value == "NaN":
                return [], "nan", "num"
            return self.expr(a, env)
        if f in ("math.fabs", "abs"):
            b, t, k = self.expr(e.args[0], env)
            return b, "fabs %s" % paren(self.tonum(t, k)), "num"
        m = {"math.log": "log", "math.exp": "exp", "math.sqrt": "sqrt"}.get(f)
        binds, ts = [], []
        for a in e.args:
            b, t, k = self.expr(a, env)
            binds += b
            ts.append(paren(self.tonum(t, k)))
        v = fn.fresh()
        if m is None:
            m = self.target(f)
        return binds + [(v, " ".join([m] + ts))], v, "int" if m.startswith("region_") else "num"

    def target(self, f):
        parts = f.split(".")
        if parts[0] == "self":
            if parts[1] in ("_unit_converter", "unit_converter"):
                return parts[2] + " us"
            return self.mi["prefix"] + parts[1] + " us"
        return parts[-1]

    # ---- conditions: returns (monadic?, text) ------------------------
    def cond(self, e, env):
        if isinstance(e, ast.BoolOp):
            isand = isinstance(e.op, ast.And)
            parts = [self.cond(v, env) for v in e.values]
            if not any(m for m, _ in parts):
                return False, (" && " if isand else " || ").join(paren(t) for _, t in parts)
            op = "and_then" if isand else "or_else"
            txt = None
            for m, t in reversed(parts):
                t = t if m else "Ok (%s)" % t
                txt = t if txt is None else "%s (%s) (%s)" % (op, t, txt)
            return True, txt
        if isinstance(e, ast.Compare):
            s = ast.unparse(e)
            if isinstance(e.ops[0], ast.In):
                b, t, k = self.expr(e.left, env)
                return False, "existsb (Z.eqb %s) [%s]" % (t, "; ".join(ast.unparse(x) for x in e.comparators[0].elts))
            if isinstance(e.ops[0], ast.Is):
                r = ast.unparse(e.comparators[0])
                l = ast.unparse(e.left)
                if l == "hint":
                    if r == "None":
                        return False, "is_None hint"
                    return False, "is_int hint %s" % r.split(".")[1]
                if l == "self._unit_system":
                    return False, "is_%s us" % r.split("__UNIT_SYSTEM_")[1].rstrip("_")
                raise Exception(s)
            operands = [e.left] + e.comparators
            binds, ts = [], []
            for o in operands:
                b, t, k = self.expr(o, env)
                binds += b
                ts.append((t, k))
            out = []
            for i, op in enumerate(e.ops):
                (l, kl), (r, kr) = ts[i], ts[i + 1]
                if kl in ("int",) or kr in ("int",):
                    assert isinstance(op, ast.Eq)
                    out.append("Z.eqb %s %s" % (paren(l), paren(r)))
                    continue
                l, r = paren(self.tonum(l, kl)), paren(self.tonum(r, kr))
                o = {"Lt": "<?", "LtE": "<=?", "Gt": ">?", "GtE": ">=?", "Eq": "=?"}[type(op).__name__]
                out.append("%s %s %s" % (l, o, r))
            txt = out[0] if len(out) == 1 else " && ".join(paren(x) for x in out)
            if binds:
                inner = "".join("let* %s := %s in " % b for b in binds)
                return True, inner + "Ok (%s)" % txt
            return False, txt
        raise Exception(ast.dump(e))

    # ---- statements ----------------------------------------------------
    def emit_binds(self, binds, ind):
        return "".join("%slet* %s := %s in\n" % (ind, v, t) for v, t in binds)

    def block(self, stmts, env, ind, k, brk=None, retwrap=None):
        """text of the statements followed by k(env, ind); brk for `break`;
        retwrap wraps returned values (early-return option)."""
        stmts = clean(stmts)
        if not stmts:
            return k(env, ind)
        s, rest = stmts[0], stmts[1:]
        go = lambda env2: self.block(rest, env2, ind, k, brk, retwrap)
        if isinstance(s, ast.Return):
            b, t, kd = self.expr(s.value, env)
            if self.fn.ret_int:
                assert kd in ("int", "intlit"), (self.fn.name, kd)
            else:
                t = self.tonum(t, kd)
            if b and b[-1][0] == t and retwrap is None:
                return self.emit_binds(b[:-1], ind) + ind + b[-1][1]
            t = paren(t) if retwrap is None else "(Return %s)" % paren(t)
            return self.emit_binds(b, ind) + "%sOk %s" % (ind, t)
        if isinstance(s, ast.Raise):
            return ind + "Err %s" % s.exc.func.id
        if isinstance(s, ast.Break):
            return brk(env, ind)
        if isinstance(s, ast.Expr):  # B.append([...])
            c = s.value
            assert isinstance(c, ast.Call) and c.func.attr == "append"
            nm = c.func.value.id
            env = dict(env)
            env.setdefault("__rows__", {})
            rows = dict(env["__rows__"])
            rows[nm] = rows[nm] + [c.args[0]]
            env["__rows__"] = rows
            return go(env)
        if isinstance(s, ast.Assign) or isinstance(s, ast.AugAssign):
            tgt = s.targets[0] if isinstance(s, ast.Assign) else s.target
            name = tgt.id
            val = s.value
            if isinstance(s, ast.AugAssign):
                val = ast.BinOp(left=ast.Name(id=name, ctx=ast.Load()), op=s.op, right=s.value)
                ast.copy_location(val, s)
            env2 = dict(env)
            if isinstance(val, (ast.List, ast.Tuple)):
                env2[name] = self.table(name, val)
                return go(env2)
            if isinstance(val, ast.Call) and ast.unparse(val) == "list()":
                env2["__rows__"] = {**env.get("__rows__", {}), name: []}
                env2[name] = "rows"
                return go(env2)
            if name in INT_VARS:
                b, t, kd = self.expr(val, env)
                assert kd in ("int", "intlit"), (self.fn.name, name, kd)
                env2[name] = "int"
                if b and b[-1][0] == t:
                    b = b[:-1] + [(name, b[-1][1])]
                    return self.emit_binds(b, ind) + go(env2)
                return self.emit_binds(b, ind) + "%slet %s := %s in\n" % (ind, name, t) + go(env2)
            b, t, kd = self.expr(val, env)
            t = self.tonum(t, kd)
            env2[name] = "num"
            if b and b[-1][0] == t:
                b = b[:-1] + [(name, b[-1][1])]
                return self.emit_binds(b, ind) + go(env2)
            return self.emit_binds(b, ind) + "%slet %s := %s in\n" % (ind, name, self.numlet(t)) + go(env2)
        if isinstance(s, ast.If):
            return self.if_(s, rest, env, ind, k, brk, retwrap)
        if isinstance(s, ast.For):
            return self.for_(s, rest, env, ind, go)
        if isinstance(s, ast.While):
            return self.while_(s, rest, env, ind, go, k)
        raise Exception(ast.dump(s))

    def numlet(self, t):
        return "(%s)%%num" % t if not t.isidentifier() else t

    def ifhead(self, test, env, ind):
        m, c = self.cond(test, env)
        if m:
            v = self.fn.fresh()
            return "%slet* %s := %s in\n%sif %s then\n" % (ind, v, c, ind, v)
        return "%sif (%s)%%num then\n" % (ind, c)

    def if_(self, s, rest, env, ind, k, brk, retwrap):
        i2 = ind + "  "
        head = self.ifhead(s.test, env, ind)
        bl = lambda st, kk=k: self.block(st, env, i2, kk, brk, retwrap)
        bbrk = has_break(s.body)
        if always_exits(s.body) or (bbrk and isinstance(clean(s.body)[-1], ast.Break)):
            return head + bl(s.body) + "\n" + ind + "else\n" + self.block(s.orelse + rest, env, i2 if s.orelse else ind, k, brk, retwrap)
        if s.orelse and always_exits(s.orelse):
            return head + bl(s.body + rest) + "\n" + ind + "else\n" + bl(s.orelse)
        if has_return([s]):
            if len(clean(rest)) <= 1:
                return head + bl(s.body + rest) + "\n" + ind + "else\n" + bl(s.orelse + rest)
            vs = [v for v in assigned([s]) if v in loaded(rest) and not self.dead_after(v, rest)]

            def proceed(e2, i3):
                assert all(e2.get(v) == "num" for v in vs)
                return i3 + "Ok (Proceed %s)" % (vs[0] if len(vs) == 1 else "(%s)" % ", ".join(vs) if vs else "tt")

            h2 = self.ifhead(s.test, env, ind + "    ")
            saved = self.after
            self.after = set(vs)
            t = h2 + self.block(s.body, env, ind + "      ", proceed, None, True) + "\n" + ind + "    else\n" + self.block(s.orelse, env, ind + "      ", proceed, None, True)
            self.after = saved
            env2 = dict(env)
            for v in vs:
                env2[v] = "num"
            pat = vs[0] if len(vs) == 1 else "(%s)" % ", ".join(vs) if vs else "_"
            return ("%slet* o :=\n%s in\n%smatch o with\n%s| Return r => Ok r\n%s| Proceed %s =>\n" % (ind, t, ind, ind, ind, pat)
                    + self.block(rest, env2, i2, k, brk, retwrap) + "\n" + ind + "end")
        cr = clean(rest)
        if not cr or (len(cr) == 1 and isinstance(cr[0], ast.Return) and isinstance(cr[0].value, ast.Name)):
            # nothing but a plain return follows: it is copied into both branches
            return head + bl(s.body + rest) + "\n" + ind + "else\n" + bl(s.orelse + rest)
        # join of assigned variables
        live = loaded(rest) | self.after
        vs = [v for v in assigned([s]) if v in live and not self.dead_after(v, rest) and not self.is_table(v, s)]
        assert vs, (self.fn.name, s.lineno, assigned([s]), live)
        kinds = {}

        def final(e2, i3):
            for v in vs:
                kinds.setdefault(v, set()).add(e2.get(v))
            return i3 + "@@JOIN%d@@" % id(s) + repr([e2.get(v) for v in vs]) + "@@"

        i4 = ind + "    "
        saved = self.after
        self.after = live
        h2 = self.ifhead(s.test, env, i4)
        t = h2 + self.block(s.body, env, i4 + "  ", final) + "\n" + i4 + "else\n" + self.block(s.orelse, env, i4 + "  ", final)
        self.after = saved
        env2 = dict(env)
        for v in vs:
            ks = kinds[v]
            if ks == {"num"} or ks == {"int"}:
                env2[v] = ks.pop()
            else:
                env2[v] = "opt"

        def fix(m):
            ks = eval(m.group(1))
            out = []
            for v, kk in zip(vs, ks):
                if env2[v] == "opt":
                    out.append({"num": "Some %s" % v, "opt": v, None: "None"}[kk])
                else:
                    out.append(v)
            return "Ok " + ("(%s)" % ", ".join(out) if len(out) > 1 else paren(out[0]))

        import re
        t = re.sub(r"@@JOIN%d@@(.*?)@@" % id(s), fix, t)
        pat = vs[0] if len(vs) == 1 else "(%s)" % ", ".join(vs)
        after = self.block(rest, env2, ind, k, brk, retwrap)
        if after.strip() == "Ok " + pat:
            return "\n".join(l[4:] if l.startswith("    ") else l for l in t.split("\n"))
        return "%slet* %s :=\n%s in\n" % (ind, pat, t) + after

    def is_table(self, v, s):
        for x in ast.walk(s):
            if isinstance(x, ast.Assign) and isinstance(x.targets[0], ast.Name) and x.targets[0].id == v:
                return isinstance(x.value, (ast.List, ast.Tuple))
        return False

    def table(self, name, val):
        fn = self.fn
        vals = [lit_text(x) for x in val.elts]
        allint = all(isinstance(c.value, int) for _, c in vals) and name not in ("h0", "h1", "h2", "h3", "h4", "h5", "h6", "A", "B", "a", "b")
        cnt = fn.tnames.get(name, 0) + 1
        fn.tnames[name] = cnt
        coq = fn.name + "_" + name + ("" if cnt == 1 else "_%d" % cnt)
        txts = [numtext(fn, x) for x in val.elts]
        fn.tables.append((coq, "Z" if allint else "dec", txts, val.lineno, val.end_lineno))
        return "tab:%s:%s:%d" % ("Z" if allint else "dec", coq, len(txts))

    def for_(self, s, rest, env, ind, go):
        fn = self.fn
        i = s.target.id
        a, b = [x.value for x in s.iter.args]
        env_in = dict(env)
        # materialise rows
        for nm, rows in env.get("__rows__", {}).items():
            if env_in.get(nm) == "rows":
                coq = fn.name + "_" + nm
                txts = ["[" + "; ".join(numtext(fn, x) for x in r.elts) + "]" for r in rows]
                if not any(t[0] == coq for t in fn.tables):
                    fn.tables.append((coq, "list dec", txts, rows[0].lineno, rows[-1].end_lineno))
                env_in[nm] = "tab:row:%s:%d" % (coq, len(rows))
        env = env_in
        names = []
        bare = False
        body = clean(s.body)
        sub_ids = set()
        for st in body:
            for x in walk_nolog(st):
                if isinstance(x, ast.Subscript) and isinstance(x.value, ast.Name) and isinstance(x.slice, ast.Name) and x.slice.id == i:
                    sub_ids.add(id(x.slice))
                    if x.value.id not in names:
                        names.append(x.value.id)
        for st in body:
            for x in walk_nolog(st):
                if isinstance(x, ast.Name) and x.id == i and id(x) not in sub_ids:
                    bare = True
        lists, pats, elem = [], [], {}
        subst = dict(env.get("__subst__", {}))
        if bare:
            lists.append("zrange %d %d" % (a, b))
            pats.append(i)
            subst[i] = (i, "int")
        for nm in names:
            _, kd, coq, ln = env[nm].split(":")
            assert int(ln) >= b, (fn.name, nm, ln, b)
            lists.append("slice %d %d %s" % (a, b, coq))
            el = nm + "_" + i
            pats.append(el)
            elem[(nm, i)] = (el, "int") if kd == "Z" else (("lit " + el), "num") if kd == "dec" else (el, "row")
            if kd == "dec":
                elem[(nm, i)] = ("(lit %s)" % el, "num")
        acc = [v for v in assigned(body) if v in env and (v in loaded(rest) or v in self.after or reads_before_write(body, v))]
        st_pat = acc[0] if len(acc) == 1 else "'(%s)" % ", ".join(acc)
        st_val = acc[0] if len(acc) == 1 else "(%s)" % ", ".join(acc)
        zl = lists[-1]
        for l in reversed(lists[:-1]):
            zl = "combine (%s) (%s)" % (l, zl)
        ep = pats[-1]
        for p_ in reversed(pats[:-1]):
            ep = "(%s, %s)" % (p_, ep)
        if len(pats) > 1:
            ep = "'" + ep
        env2 = dict(env)
        env2["__elem__"] = {**env.get("__elem__", {}), **elem}
        env2["__subst__"] = subst
        saved = self.after
        self.after = set(acc)
        t = self.block(body, env2, ind + "    ", lambda e2, i3: i3 + "Ok %s" % st_val)
        self.after = saved
        # a for-body that ends in `let x := e in Ok x` stays as is
        txt = "%slet* %s := for_each (%s) %s (fun %s %s =>\n%s) in\n" % (ind, st_val, zl, st_val, st_pat, ep, t)
        env3 = dict(env)
        for v in acc:
            env3[v] = "num"
        return txt + self.block(rest, env3, ind, self.k, None, None) if False else txt + go(env3)

    def while_(self, s, rest, env, ind, go, k):
        body = clean(s.body)
        live = loaded(rest) | self.after
        cond_names = {x.id for x in ast.walk(s.test) if isinstance(x, ast.Name)}
        vs = [v for v in assigned(body)
              if v in live and not self.dead_after(v, rest) or v in cond_names or reads_before_write(body, v)]
        env_in = dict(env)
        init = []
        for v in vs:
            if env.get(v) == "num":
                init.append(v)
            else:
                assert v not in env
                env_in[v] = "opt"
                init.append("None")

        def st(e2):
            out = []
            for v in vs:
                if env_in[v] == "opt":
                    out.append({"num": "Some %s" % v, "opt": v}[e2[v]])
                else:
                    out.append(v)
            return "(%s)" % ", ".join(out)

        i2 = ind + "     "
        pat = "'(%s)" % ", ".join(vs)
        m, c = self.cond(s.test, env_in)
        ctext = c if m else "Ok (%s)" % ("(%s)%%num" % c)
        saved = self.after
        self.after = set(vs)
        bt = self.block(body, env_in, i2 + "  ",
                        lambda e2, i3: i3 + "Ok (Next %s)" % st(e2),
                        brk=lambda e2, i3: i3 + "Ok (Break %s)" % st(e2))
        self.after = saved
        txt = "%slet* %s := while fuel\n%s(fun %s => %s)\n%s(fun %s =>\n%s)\n%s(%s) in\n" % (
            ind, pat[1:], i2, pat, ctext, i2, pat, bt, i2, ", ".join(init))
        env3 = dict(env_in)
        return txt + go(env3)

    def dead_after(self, v, rest):
        """v is overwritten before being read in rest"""
        return v in assigned(rest) and not reads_before_write(rest, v) and v not in self.after

    def function(self):
        fn = self.fn
        node = fn.node
        args = [a.arg for a in node.args.args if a.arg != "self"]
        env = {}
        ps = []
        if self.mi.get("us") and any(a.arg == "self" for a in node.args.args):
            ps.append("(us : unit_system)")
        for a in args:
            if a == "hint":
                ps.append("(hint : pyobj)")
            else:
                env[a] = "num"
        nums = [a for a in args if a != "hint"]
        if nums:
            ps.insert(1 if ps and ps[0].startswith("(us") else 0, "(%s : num)" % " ".join(nums))
        self.after = set()

        def fin(e2, i3):
            raise Exception("falls off the end: " + fn.name)

        import re
        body = self.block(node.body, env, "  ", fin)
        # let* x := e in Ok x   -->   e      (right identity of bind)
        body = re.sub(r"let\* (\w+) := ([^\n]*) in\n\s*Ok \1(?![\w'])", r"\2", body)
        out = ""
        for coq, kd, txts, l0, l1 in fn.tables:
            out += "(* %s:%d-%d *)\nDefinition %s : list %s := [" % (self.mi["file"], l0, l1, coq, paren(kd))
            sc = "Z" if kd == "Z" else "dec"
            line = ""
            lines = []
            for i, t in enumerate(txts):
                piece = t + ("; " if i < len(txts) - 1 else "")
                if len(line) + len(piece) > 92:
                    lines.append(line)
                    line = ""
                line += piece
            lines.append(line)
            out += "\n  ".join(lines) if len(lines) == 1 else "\n  " + "\n  ".join(lines)
            out += "]%%%s.\n" % sc
        out += "(* %s:%d-%d, %s *)\n" % (self.mi["file"], node.lineno, node.end_lineno, self.mi["qual"] + node.name)
        out += "Definition %s%s : res %s :=\n%s.\n" % (
            fn.name, "".join(" " + p for p in ps), "Z" if fn.ret_int else "num", body)
        return out


def translate(fname, classname, names, prefix="", us=False):
    path = os.path.join(REPO, "pyXSteam", fname)
    src = open(path, encoding="utf-8").read()
    tree = ast.parse(src)
    body = tree.body
    qual = ""
    if classname:
        body = [c for c in tree.body if isinstance(c, ast.ClassDef) and c.name == classname][0].body
        qual = classname + "."
    fns = [n for n in body if isinstance(n, ast.FunctionDef)]
    if names is not None:
        byname = {n.name: n for n in fns}
        fns = [byname[n] for n in names]
    mi = {"file": "pyXSteam/" + fname, "qual": qual, "prefix": prefix, "us": us}
    return [T(Fn(mi, n, src, prefix, None, n.name.startswith("region_")), mi).function() for n in fns]


HEADER = """(** GENERATED by tools/translate.py from %s -- do not edit.
    Text of the Python source, function by function; see DESIGN.md. *)
From Coq Require Import ZArith List Bool.
From Verif Require Import %s.
Import ListNotations.
Open Scope Z_scope.
Open Scope num_scope.

Section Model.
Context {N : Num} {F : Fuel}.

"""


def write(name, source, reqs, parts):
    with open(os.path.join(OUT, name), "w", encoding="utf-8") as f:
        f.write(HEADER % (source, reqs))
        f.write("\n".join(parts))
        f.write("\nEnd Model.\n")


def class_names(fname, classname):
    tree = ast.parse(open(os.path.join(REPO, "pyXSteam", fname), encoding="utf-8").read())
    body = tree.body
    if classname:
        body = [c for c in tree.body if isinstance(c, ast.ClassDef) and c.name == classname][0].body
    return [n.name for n in body if isinstance(n, ast.FunctionDef)]


def constants():
    path = os.path.join(REPO, "pyXSteam", "Constants.py")
    src = open(path, encoding="utf-8").read()
    out = []
    for s in ast.parse(src).body:
        if isinstance(s, ast.Assign):
            neg, c = lit_text(s.value)
            t = neg + segment(src, c)
            out.append("(* pyXSteam/Constants.py:%d *)\nDefinition %s : num := #%s.\n" % (
                s.lineno, s.targets[0].id.strip("_"), "(%s)" % t if neg else t))
    return out


def main():
    os.makedirs(OUT, exist_ok=True)
    write("ModConstants.v", "pyXSteam/Constants.py", "Py", constants())
    uc = [n for n in class_names("UnitConverter.py", "UnitConverter") if "SIunit" in n]
    head = ["""(** The three values [_unit_system] can hold (UnitConverter.py:14-16, 24-34). *)
""" if False else ""]
    write("ModUnits.v", "pyXSteam/UnitConverter.py", "Py ModConstants ModState",
          translate("UnitConverter.py", "UnitConverter", uc, us=True))
    write("ModBorders.v", "pyXSteam/RegionBorders.py", "Py", translate("RegionBorders.py", None, None))
    # order the functions of Regions.py so that callees come first
    r1 = class_names("Regions.py", "Region1")
    r2 = class_names("Regions.py", "Region2")
    r3 = class_names("Regions.py", "Region3")
    r4 = class_names("Regions.py", "Region4")
    r5 = class_names("Regions.py", "Region5")
    write("ModRegion1.v", "pyXSteam/Regions.py, class Region1 (T1_prho is in ModRegion4.v)", "Py ModConstants ModBorders",
          translate("Regions.py", "Region1", [n for n in r1 if n != "T1_prho"]))
    write("ModRegion2.v", "pyXSteam/Regions.py, class Region2 (T2_prho is in ModRegion4.v)", "Py ModConstants ModBorders",
          translate("Regions.py", "Region2", [n for n in r2 if n != "T2_prho"]))
    write("ModRegion3.v", "pyXSteam/Regions.py, class Region3 (h3_pT is in ModRegion4.v)", "Py ModConstants ModBorders ModRegion1 ModRegion2",
          translate("Regions.py", "Region3", [n for n in r3 if n != "h3_pT"]))
    write("ModRegion4.v", "pyXSteam/Regions.py, class Region4, and the iterations of other classes that use it",
          "Py ModConstants ModBorders ModRegion1 ModRegion2 ModRegion3",
          translate("Regions.py", "Region4", r4)
          + translate("Regions.py", "Region1", ["T1_prho"])
          + translate("Regions.py", "Region2", ["T2_prho"])
          + translate("Regions.py", "Region3", ["h3_pT"]))
    write("ModRegion5.v", "pyXSteam/Regions.py, class Region5", "Py ModConstants ModBorders ModRegion2",
          translate("Regions.py", "Region5", r5))
    write("ModSelect.v", "pyXSteam/RegionSelection.py",
          "Py ModConstants ModBorders ModRegion1 ModRegion2 ModRegion3 ModRegion4 ModRegion5",
          translate("RegionSelection.py", None, None))
    write("ModTransport.v", "pyXSteam/TransportProperties.py",
          "Py ModConstants ModBorders ModRegion1 ModRegion2 ModRegion3 ModRegion4 ModRegion5 ModSelect",
          translate("TransportProperties.py", None, None))
    write("ModR14.v", "pyXSteam/IAPWS_R14.py", "Py", translate("IAPWS_R14.py", None, None))
    write("ModR4.v", "pyXSteam/IAPWS_R4.py", "Py", translate("IAPWS_R4.py", None, None))
    xs = [n for n in class_names("XSteam.py", "XSteam") if n not in ("__init__",)]
    # callees first
    early = ["tsat_p", "psat_t", "v_ph", "t_ph", "p_hs", "h_ps", "my_ph", "Cp_pt", "Cp_ph", "my_pt", "v_pt", "tc_pt", "tc_ph"]
    rest = [n for n in xs if n not in early]
    write("ModXSteam.v", "pyXSteam/XSteam.py, class XSteam (methods reordered, callees first)",
          "Py ModConstants ModState ModUnits ModBorders ModRegion1 ModRegion2 ModRegion3 ModRegion4 ModRegion5 ModSelect ModTransport ModR14",
          translate("XSteam.py", "XSteam", early + rest, us=True))
    hw = [n for n in class_names("XSteam_HW.py", "XSteam_HW") if n != "__init__"]
    write("ModXSteamHW.v", "pyXSteam/XSteam_HW.py, class XSteam_HW (names prefixed hw_)",
          "Py ModConstants ModState ModUnits ModR4",
          translate("XSteam_HW.py", "XSteam_HW", hw, prefix="hw_", us=True))


main()
