"""Generate rocq/theories/Tables.v from the literal tables in /repo (text only, via ast).

Every number is copied as the exact decimal literal of the source.
Negative literals are parenthesised.  Nothing is evaluated except tuple/list structure.
"""
import ast, re
from decimal import Decimal

def load(path):
    src = open(path).read()
    return src, ast.parse(src)

def lit(node, src):
    "exact source text of a numeric literal (with sign)"
    t = ast.get_source_segment(src, node).replace(" ", "")
    t = t.lstrip("+")
    return "(%s)" % t if t.startswith("-") else t

def find(tree, name):
    for n in tree.body:
        if isinstance(n, ast.Assign) and n.targets[0].id == name and isinstance(n.value, ast.List):
            return n
    raise KeyError(name)

out = []
w = out.append
w("(* GENERATED by tools/gen_tables.py from the literal tables of /repo; do not edit by hand.")
w("   Numbers are the exact decimal literals of the source.")
w("   [Q] is used only as a notation for the decimal literal; each arithmetic instance")
w("   turns it into its own number. *)")
w("From Coq Require Import QArith ZArith List.")
w("Import ListNotations.")
w("")
def emit_rows(name, node, src, scope, doc):
    w("(* %s *)" % doc)
    w("Definition %s :=" % name)
    rows = []
    for e in node.value.elts:
        assert isinstance(e, ast.Tuple)
        rows.append("(" + ", ".join(lit(x, src) for x in e.elts) + ")")
    w("  ([ " + ";\n     ".join(rows) + " ])%" + scope + ".")
    w("")
def emit_lines(name, node, src, doc):
    w("(* %s *)" % doc)
    w("Definition %s :=" % name)
    lines = []
    for e in node.value.elts:
        assert isinstance(e, ast.List)
        rows = []
        for x in e.elts:
            if isinstance(x, ast.Tuple):
                rows.append("(" + ", ".join(lit(y, src) for y in x.elts) + ")")
            else:
                rows.append(lit(x, src))
        lines.append("[ " + ";\n       ".join(rows) + " ]")
    w("  ([ " + ";\n     ".join(lines) + " ])%Q.")
    w("")

p = "/repo/pysolar/solartime.py"
src, tree = load(p)
n = find(tree, "leap_seconds_adjustments")
emit_rows("leap_seconds_adjustments", n, src, "Z", "pysolar/solartime.py lines %d-%d" % (n.lineno, n.end_lineno))
n = find(tree, "delta_t")
emit_lines("delta_t", n, src, "pysolar/solartime.py lines %d-%d" % (n.lineno, n.end_lineno))
p = "/repo/pysolar/constants.py"
src, tree = load(p)
n = find(tree, "aberration_sin_terms")
emit_rows("aberration_sin_terms", n, src, "Z", "pysolar/constants.py lines %d-%d (integers)" % (n.lineno, n.end_lineno))
n = find(tree, "nutation_coefficients")
emit_rows("nutation_coefficients", n, src, "Q", "pysolar/constants.py lines %d-%d" % (n.lineno, n.end_lineno))
for name in ("heliocentric_longitude_coeffs", "heliocentric_latitude_coeffs", "sun_earth_distance_coeffs"):
    n = find(tree, name)
    emit_lines(name, n, src, "pysolar/constants.py lines %d-%d" % (n.lineno, n.end_lineno))
open("/verif/rocq/theories/Tables.v", "w").write("\n".join(out))
