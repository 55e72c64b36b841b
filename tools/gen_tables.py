#!/usr/bin/env python3
"""Transcribe the JSON tables of /repo/OpenNTN/models into Gallina data.

Every numeric literal is kept as written: "d.ddd" becomes JNum m e meaning m/10^e, an integer
literal becomes JInt, a string literal becomes JStr.  Nothing is evaluated or rounded.
Usage: gen_tables.py /repo/OpenNTN/models /verif/rocq/theories
"""
import json, glob, os, re, sys
src, dst = sys.argv[1], sys.argv[2]

def num(s):
    m = re.fullmatch(r'(-?)(\d+)(?:\.(\d*))?(?:[eE]([+-]?\d+))?', s)
    assert m, s
    sign, i, f, ex = m.group(1), m.group(2), m.group(3) or '', int(m.group(4) or 0)
    assert ex == 0, s
    v = int(sign + i + f)
    return v, len(f)

class N(str): pass
class I(str): pass

def load(fn):
    return json.load(open(fn), object_pairs_hook=lambda p: p,
                     parse_float=lambda s: N(s), parse_int=lambda s: I(s))

def jv(v):
    if isinstance(v, N):
        m, e = num(v)
        return "JNum (%d) %d" % (m, e)
    if isinstance(v, I):
        return "JInt (%s)" % v
    if isinstance(v, bool):
        return "JBool %s" % ("true" if v else "false")
    if isinstance(v, str):
        return 'JStr "%s"' % v
    if isinstance(v, list):
        return "JList [" + "; ".join(jv(x) for x in v) + "]"
    raise Exception(v)

HEAD = """(* GENERATED by tools/gen_tables.py from /repo/OpenNTN/models -- do not edit.
   One definition per JSON file; entries in file order, literals kept exactly. *)
From Coq Require Import ZArith List String.
From Verif Require Import M_Json.
Import ListNotations.
Open Scope string_scope.
Open Scope Z_scope.

"""
def emit(out, files):
    with open(os.path.join(dst, out), "w") as g:
        g.write(HEAD)
        names = []
        for f in files:
            b = os.path.basename(f)
            name = "tab_" + re.sub(r'[^A-Za-z0-9]', '_', b[:-5])
            names.append((b, name))
            g.write("(* /repo/OpenNTN/models/%s *)\nDefinition %s : json_obj :=\n  [ " % (b, name))
            g.write(";\n    ".join('("%s", %s)' % (k, jv(v)) for k, v in load(f)))
            g.write(" ].\n\n")
        return names

for env in ("Dense_Urban", "Urban", "Sub_Urban"):
    fs = sorted(f for f in glob.glob(src + "/" + env + "_*.json")
                if os.path.basename(f).startswith((env + "_LOS", env + "_NLOS")))
    emit("D_%s.v" % env, fs)
emit("D_Links.v", sorted(glob.glob(src + "/TDL-*.json") + glob.glob(src + "/CDL-*.json")))
