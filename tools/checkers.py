#!/usr/bin/env python3
"""Transcribes the rules of /repo/pdr/formats/checkers.py into the syntax of
Model/CheckerRules.v: one rule for each `if`, in order, with its lines."""
import ast, sys, re as R
SRC = "/repo/pdr/formats/checkers.py"
tree = ast.parse(open(SRC).read())
WANT = ["check_special_offset", "check_special_table_reader", "check_special_structure", "check_special_position",
        "check_special_sample_type", "check_special_bit_format", "check_special_block", "check_trivial_case",
        "check_special_fn", "check_special_qube_band_storage", "check_special_fits_start_byte",
        "check_special_compressed_file_reader", "check_special_pds4_cases", "check_special_label",
        "check_special_bit_column_case", "check_special_bit_start_case"]
def s(x): return '$"%s"' % x.replace('"', '""')
def paren(x): return x if " " not in x else "(" + x + ")"

def pieces(pat):
    """alternatives of a pattern, each a list of pieces"""
    def seq(i, stop):
        alts, cur = [], [[]]
        while i < len(pat) and pat[i] not in stop:
            c = pat[i]
            if c == "(":
                sub = []
                i += 1
                while True:
                    a, i = seq(i, "|)")
                    sub += a
                    if pat[i] == ")": break
                    i += 1
                i += 1
                cur = [x + y for x in cur for y in sub]
                continue
            if c == "[":
                j = pat.index("]", i)
                cs = pat[i + 1:j]
                i = j + 1
                if i < len(pat) and pat[i] == "+":
                    i += 1
                    p = "Several " + s(cs)
                else: p = "OneOf " + s(cs)
                cur = [x + [p] for x in cur]
                continue
            if c == ".":
                if pat[i + 1:i + 2] == "*":
                    assert i + 2 == len(pat)   # .* at the end matches always
                    i += 2
                    continue
                cur = [x + ["Any"] for x in cur]
            else:
                cur = [x + [c] for x in cur]
            i += 1
        return cur, i
    alts = []
    i = 0
    while True:
        a, i = seq(i, "|")
        alts += a
        if i >= len(pat): break
        i += 1
    out = []
    for a in alts:
        ps, lit = [], ""
        for p in a:
            if len(p) == 1: lit += p
            else:
                if lit: ps.append("Lit " + s(lit)); lit = ""
                ps.append(p)
        if lit: ps.append("Lit " + s(lit))
        out.append("[" + "; ".join(ps) + "]")
    return "[" + "; ".join(out) + "]"

class Fun:
    def __init__(self, f):
        self.f, self.env = f, {}
    def subject(self, e):
        if isinstance(e, ast.Name):
            if e.id in self.env: return self.subject(self.env[e.id])
            return {"name": "Name", "object_name": "Name", "pointer": "Name", "fn": "File", "filename": "File"}[e.id]
        if isinstance(e, ast.Subscript):
            v = e.value
            if isinstance(v, ast.Name) and v.id == "identifiers": return "Ident " + s(e.slice.value)
            if isinstance(v, ast.Name) and v.id == "block": return "Block " + s(e.slice.value)
            if isinstance(v, ast.Name) and v.id == "base_samp_info" and e.slice.value == "SAMPLE_TYPE": return "Sample"
            if isinstance(v, ast.Subscript) and v.value.id == "block": return "BlockIn %s %s" % (s(v.slice.value), s(e.slice.value))
            if isinstance(v, ast.Call) and e.slice.value == 0: return "LabelFirst " + s(v.args[0].value)
        if isinstance(e, ast.Call) and isinstance(e.func, ast.Attribute):
            if e.func.attr == "get" and e.func.value.id == "identifiers": return "Ident " + s(e.args[0].value)
            if e.func.attr == "metaget_":
                return ("LabelOr " if len(e.args) == 2 else "Label ") + s(e.args[0].value)
            if e.func.attr == "lower": return "Lower " + paren(self.subject(e.func.value))
        if isinstance(e, ast.Attribute) and e.value.id == "data" and e.attr == "filename": return "File"
        raise Exception(ast.dump(e))
    def cond(self, e, bind=None):
        if isinstance(e, ast.BoolOp):
            op = " &. " if isinstance(e.op, ast.And) else " |. "
            return op.join(("(" + self.cond(v, bind) + ")") if isinstance(v, ast.BoolOp) else self.cond(v, bind) for v in e.values)
        if isinstance(e, ast.Compare):
            assert len(e.ops) == 1
            l, op, r = e.left, e.ops[0], e.comparators[0]
            if isinstance(op, ast.LtE):
                if isinstance(l, ast.Constant): return "AtLeast %d %s" % (l.value, paren(self.subject(r.args[0])))
                return "AtMost %d %s" % (r.value, paren(self.subject(l.args[0])))
            if isinstance(op, ast.Eq):
                if isinstance(l, ast.Constant): l, r = r, l
                if isinstance(r.value, int): return "IsNumber %s %d" % (paren(self.subject(l)), r.value)
                return "Is %s %s" % (paren(self.subject(l)), s(r.value))
            neg = isinstance(op, ast.NotIn)
            if isinstance(l, ast.Name) and bind and l.id == bind[0]: l = ast.Constant(bind[1])
            if isinstance(l, ast.Constant):
                if isinstance(r, ast.Call) and isinstance(r.func, ast.Attribute) and r.func.attr == "keys": x = "Listed " + s(l.value)
                else: x = "Has %s %s" % (s(l.value), paren(self.subject(r)))
            elif isinstance(r, (ast.Tuple, ast.List)):
                x = "IsOneOf %s [%s]" % (paren(self.subject(l)), "; ".join(s(k.value) for k in r.elts))
            else:
                x = "Within %s %s" % (paren(self.subject(l)), s(r.value))
            return "Not (%s)" % x if neg else x
        if isinstance(e, ast.Call):
            f = e.func
            if isinstance(f, ast.Name) and f.id in ("all", "any"):
                g = e.args[0]
                b = g.generators[0]
                op = " &. " if f.id == "all" else " |. "
                return "(" + op.join(self.cond(g.elt, (b.target.id, k.value)) for k in b.iter.elts) + ")"
            if isinstance(f, ast.Attribute):
                if f.attr == "match": return "Matches %s %s" % (paren(self.subject(e.args[1])), pieces(e.args[0].value))
                if f.attr == "search":
                    ws = self.env[f.value.id].args[0].value.split("|")
                    return "Search %s [%s]" % (paren(self.subject(e.args[0])), "; ".join(map(s, ws)))
                if f.attr in ("startswith", "endswith"):
                    k = {"startswith": "Starts", "endswith": "Ends"}[f.attr]
                    a = e.args[0]
                    ws = [x.value for x in a.elts] if isinstance(a, ast.Tuple) else [a.value]
                    r = " |. ".join("%s %s %s" % (k, paren(self.subject(f.value)), s(w)) for w in ws)
                    return r if len(ws) == 1 else "(" + r + ")"
            if isinstance(f, ast.Name) and f.id == "is_trivial": return None
        raise Exception(ast.dump(e))
    def action(self, st):
        assert isinstance(st, ast.Return)
        v = st.value
        sure = "Maybe"
        if isinstance(v, ast.Tuple):
            if v.elts[0].value is False: return "Nothing"
            sure, v = "Always", v.elts[1]
        if isinstance(v, ast.Constant): return "Says " + s(v.value)
        f = v.func
        return "%s %s %s" % (sure, s(f.value.attr), s(f.attr))
    def rules(self):
        out = []
        for st in self.f.body:
            if isinstance(st, ast.Assign): self.env[st.targets[0].id] = st.value
            if not isinstance(st, ast.If): continue
            c = self.cond(st.test)
            if c is None: continue
            where = "%d-%d" % (st.lineno, st.end_lineno)
            if isinstance(st.body[0], ast.If):
                inner = st.body[0]
                out.append((where, "(%s) &. %s" % (c, self.cond(inner.test)), self.action(inner.body[0])))
                out.append((where, c, self.action(st.body[1])))
            else: out.append((where, c, self.action(st.body[0])))
        return out
for f in tree.body:
    if isinstance(f, ast.FunctionDef) and f.name in WANT:
        rs = Fun(f).rules()
        print("(** checkers.py:%d-%d *)" % (f.lineno, f.end_lineno))
        print("Definition %s_rules : list rule :=\n  [%s]." % (f.name, ";\n   ".join("(* %s *) mkRule (%s) (%s)" % r for r in rs)))
