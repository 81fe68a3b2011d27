"""Generate rocq/theories/Decodes.v from nmeatypes_decodes.py (read as text, by ast)."""
import ast, sys
P = "/repo/src/pynmeagps/nmeatypes_decodes.py"
src = open(P, encoding="utf-8").read()
tree = ast.parse(src)
def s(x): return 'u "%s"' % x.replace('"', '""')
def v(x): return f"VInt {x}" if isinstance(x, int) else f"VStr ({s(x)})"
out = ["(* Generated by tools/gen_decodes.py from src/pynmeagps/nmeatypes_decodes.py: the",
       "   decode dictionaries, in source order.  A Python str key is VStr, an int key VInt. *)",
       "From Coq Require Import String.", "From Verif Require Import PyBase Message.", "Local Open Scope Z_scope.", "Local Open Scope string_scope.", ""]
for n in tree.body:
    if isinstance(n, ast.Assign) and isinstance(n.value, ast.Dict):
        rows = [(ast.literal_eval(k), ast.literal_eval(x)) for k, x in zip(n.value.keys, n.value.values)]
        name = n.targets[0].id
        k0, x0 = rows[0]
        kt = "(pyval * pyval)" if isinstance(k0, tuple) else "pyval"
        xt = "(pystr * pystr)" if isinstance(x0, tuple) else "pystr"
        kk = lambda k: "(%s, %s)" % tuple(map(v, k)) if isinstance(k, tuple) else v(k)
        xx = lambda x: "(%s, %s)" % tuple(map(s, x)) if isinstance(x, tuple) else s(x)
        out.append(f"(* nmeatypes_decodes.py:{n.lineno}-{n.end_lineno} {name} *)")
        out.append(f"Definition {name} : list ({kt} * {xt}) :=\n  [" + ";\n   ".join(f"({kk(k)}, {xx(x)})" for k, x in rows) + "].")
        for t in n.targets[1:]:
            out.append(f"(* nmeatypes_decodes.py:{n.lineno} the same dictionary under another name *)\nDefinition {t.id} := {name}.")
        out.append("")
open("rocq/theories/Decodes.v", "w").write("\n".join(out))
