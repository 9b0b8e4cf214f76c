"""Generate rocq/theories/Sigs.v: the parameter lists in pysolar/*.py and pysolar/*.pyi, and the
@check_aware_dt decorators, from the text of /repo (parsed with ast, nothing is imported)."""
import ast
P = "/repo/pysolar/"
out = ["(* GENERATED by tools/gen_sigs.py from the def statements of /repo/pysolar/*.py and *.pyi; do not",
       "   edit by hand.  Per function: module.name, the parameters in order, each with whether it has a",
       "   default; for the implementation also the arguments of its @check_aware_dt decorator.  No",
       "   function listed has *args, **kwargs or keyword-only parameters. *)",
       "From Coq Require Import List String.", "Import ListNotations.", "Local Open Scope string_scope.", ""]
def params(n):
    a = n.args
    assert not (a.vararg or a.kwarg or a.kwonlyargs or a.posonlyargs)
    k = len(a.args) - len(a.defaults)
    return "[" + "; ".join('("%s", %s)' % (x.arg, "true" if i >= k else "false") for i, x in enumerate(a.args)) + "]"
def decs(n):
    if not n.decorator_list: return "None"
    (d,) = n.decorator_list
    assert d.func.id == "check_aware_dt" and not d.keywords
    return "Some [" + "; ".join('"%s"' % x.value for x in d.args) + "]"
impl, stub = [], []
for m in ["solar", "solartime", "radiation", "elevation", "constants", "simulate", "util"]:
    t = open(P + m + ".py").read()
    for n in ast.parse(t).body:
        if isinstance(n, ast.FunctionDef):
            impl.append('("%s.%s", %s, %s)' % (m, n.name, params(n), decs(n)))
    for n in ast.parse(open(P + m + ".pyi").read()).body:
        if isinstance(n, ast.FunctionDef):
            stub.append('("%s.%s", %s)' % (m, n.name, params(n)))
out += ["(* pysolar/*.py *)", "Definition impl_sigs : list (string * list (string * bool) * option (list string)) :=", "  [ " + ";\n    ".join(impl) + " ].", "",
        "(* pysolar/*.pyi *)", "Definition stub_sigs : list (string * list (string * bool)) :=", "  [ " + ";\n    ".join(stub) + " ].", ""]
open("/verif/rocq/theories/Sigs.v", "w").write("\n".join(out))
print(len(impl), len(stub))
