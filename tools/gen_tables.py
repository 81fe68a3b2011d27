#!/usr/bin/env python3
"""Generate rocq/theories/Tables.v from the TEXT of /repo/src/pynmeagps/nmeatypes_*.py.

The modules are parsed with `ast` and interpreted symbolically (dict displays,
constants, attribute-type names, subscripts of earlier tables, ** merging);
pynmeagps itself is never imported or run.
"""
import ast, sys
REPO = sys.argv[1] if len(sys.argv) > 1 else "/repo"
SRC = REPO + "/src/pynmeagps/"

env = {}           # global name -> value


class Entry:        # dict value together with its source position
    def __init__(self, items, where):
        self.items, self.where = items, where   # items: list of (key, value, line)


def load(fn, names):
    tree = ast.parse(open(SRC + fn, encoding="utf-8").read())
    for st in tree.body:
        if isinstance(st, ast.Assign) and len(st.targets) == 1 and isinstance(st.targets[0], ast.Name):
            nm = st.targets[0].id
            try:
                env[nm] = ev(st.value, fn)
            except NotImplementedError:
                if nm in names:
                    raise


def ev(e, fn):
    if isinstance(e, ast.Constant):
        return e.value
    if isinstance(e, ast.Name):
        if e.id not in env:
            raise NotImplementedError(e.id)
        return env[e.id]
    if isinstance(e, ast.Tuple):
        return tuple(ev(x, fn) for x in e.elts)
    if isinstance(e, ast.Subscript):
        d = ev(e.value, fn)
        k = ev(e.slice, fn)
        for (kk, v, _) in reversed(d.items):
            if kk == k:
                return v
        raise KeyError(k)
    if isinstance(e, ast.Dict):
        items = []
        for k, v in zip(e.keys, e.values):
            if k is None:
                for (kk, vv, ln) in ev(v, fn).items:
                    put(items, kk, vv, ln)
            else:
                put(items, ev(k, fn), ev(v, fn), f"{fn}:{k.lineno}")
        return Entry(items, f"{fn}:{e.lineno}")
    raise NotImplementedError(ast.dump(e)[:80])


def put(items, k, v, ln):          # Python dict update: keeps position of first occurrence
    for i, (kk, _, _) in enumerate(items):
        if kk == k:
            items[i] = (k, v, ln)
            return
    items.append((k, v, ln))


CORE = ["NMEA_TALKERS", "NMEA_MSGIDS", "NMEA_MSGIDS_PROP", "NMEA_PREFIX_PROP"]
load("nmeatypes_core.py", CORE)
load("nmeatypes_get.py", ["NMEA_PAYLOADS_GET"])
load("nmeatypes_get_prop.py", ["NMEA_PAYLOADS_GET_PROP"])
load("nmeatypes_set.py", ["NMEA_PAYLOADS_SET"])
load("nmeatypes_set_prop.py", ["NMEA_PAYLOADS_SET_PROP"])
load("nmeatypes_poll.py", ["NMEA_PAYLOADS_POLL"])
load("nmeatypes_poll_prop.py", ["NMEA_PAYLOADS_POLL_PROP"])


def q(s):
    if all(32 <= ord(c) < 127 for c in s):
        return 'u "' + s.replace('"', '""') + '"'
    return "[" + "; ".join(str(ord(c)) for c in s) + "]%N"


def adef(v):
    if isinstance(v, str):
        return f"ASingle ({q(v)})"
    numr, d = v
    if isinstance(numr, bool):
        raise NotImplementedError
    n = f"NInt ({numr})" if isinstance(numr, int) else f"NStr ({q(numr)})"
    return f"AGroup ({n}) {pdict(d)}"


def pdict(d):
    return "[" + ";\n     ".join(f"({q(k)}, {adef(v)})" for (k, v, _) in d.items) + "]"


out = []
w = out.append
w("(* GENERATED by tools/gen_tables.py from the text of /repo/src/pynmeagps/nmeatypes_*.py - do not edit. *)")
w("From Verif Require Import PyBase.")
w("Local Open Scope N_scope.\nLocal Open Scope string_scope.\n")
for name in ["NMEA_TALKERS", "NMEA_MSGIDS", "NMEA_MSGIDS_PROP"]:
    e = env[name]
    w(f"(* {e.where} {name} *)")
    w(f"Definition {name} : list (pystr * pystr) := [")
    w(";\n".join(f"  ({q(k)}, {q(v)}) (* {ln.split(':')[1]} *)" for (k, v, ln) in e.items))
    w("].\n")
w("(* nmeatypes_core.py:754 NMEA_PREFIX_PROP *)")
w("Definition NMEA_PREFIX_PROP : list pystr := [" + "; ".join(q(x) for x in env["NMEA_PREFIX_PROP"]) + "].\n")
seen = {}
for tab, short in [("NMEA_PAYLOADS_GET", "g"), ("NMEA_PAYLOADS_GET_PROP", "gp"), ("NMEA_PAYLOADS_SET", "s"),
            ("NMEA_PAYLOADS_SET_PROP", "sp"), ("NMEA_PAYLOADS_POLL", "p"), ("NMEA_PAYLOADS_POLL_PROP", "pp")]:
    e = env[tab]
    refs = []
    for (k, v, ln) in e.items:
        if id(v) not in seen:
            nm = f"def_{short}_{k}"
            seen[id(v)] = nm
            w(f"(* {v.where} *)")
            w(f"Definition {nm} : pdict :=\n    {pdict(v)}.\n")
        refs.append((k, seen[id(v)], ln))
    w(f"(* {e.where} {tab} *)")
    w(f"Definition {tab} : list (pystr * pdict) := [")
    w(";\n".join(f"  ({q(k)}, {nm}) (* {ln} *)" for (k, nm, ln) in refs))
    w("].\n")
open("/verif/rocq/theories/Tables.v", "w").write("\n".join(out))
if __name__ == "__main__":
    for t in ["NMEA_TALKERS", "NMEA_MSGIDS", "NMEA_MSGIDS_PROP", "NMEA_PAYLOADS_GET", "NMEA_PAYLOADS_GET_PROP",
              "NMEA_PAYLOADS_SET", "NMEA_PAYLOADS_SET_PROP", "NMEA_PAYLOADS_POLL", "NMEA_PAYLOADS_POLL_PROP"]:
        print(t, len(env[t].items))
