#!/usr/bin/env python3
"""Convert the constant tables of /repo/algorithm/detail/constants/*.hpp to Coq lists.

One Coq definition per C++ array, named <struct>_<array>.  Two-dimensional arrays
become lists of lists.  The text is converted token by token; no value is computed.
"""
import re, sys, glob, os
SRC = "/repo/algorithm/detail/constants"
OUT = os.path.join(os.path.dirname(__file__), "../rocq/theories")

def num(tok):
    t = re.sub(r"(?i)(u|l)+$", "", tok.strip())
    return t.lower() if t.lower().startswith("0x") else str(int(t))

def conv(body, two, small):
    if two:
        rows = re.findall(r"\{([^{}]*)\}", body)
        return [[num(x) for x in r.split(",") if x.strip()] for r in rows]
    return [num(x) for x in body.split(",") if x.strip()]

def fmt(l, per):
    out = []
    for i in range(0, len(l), per):
        out.append("; ".join(l[i:i + per]))
    return "[" + ";\n   ".join(out) + "]"

def main():
    for path in sorted(glob.glob(SRC + "/*_constants.hpp")):
        name = os.path.basename(path)[:-len("_constants.hpp")]
        text = open(path).read()
        out = ["(** Constant tables of algorithm/detail/constants/%s_constants.hpp," % name,
               "    converted mechanically by tools/gen_constants.py. *)",
               "From Coq Require Import NArith List.", "Import ListNotations.", "Open Scope N_scope.", ""]
        pat = re.compile(r"const\s+(?:static\s+)?(?:unsigned\s+char|unsigned|uint\d+_t|int)\s+(\w+)<\w+>::(\w+)((?:\[\d+\])+)\s*=\s*\{(.*?)\};", re.S)
        for m in pat.finditer(text):
            st, arr, dims, body = m.groups()
            dims = [int(x) for x in re.findall(r"\d+", dims)]
            line = text.count("\n", 0, m.start()) + 1
            endl = text.count("\n", 0, m.end()) + 1
            two = len(dims) == 2
            v = conv(body, two, False)
            assert len(v) == dims[0], (path, arr)
            out.append("(** constants/%s_constants.hpp:%d-%d %s::%s *)" % (name, line, endl, st, arr))
            dn = "%s_%s" % (st.replace("_constants", ""), arr)
            if two:
                for r in v: assert len(r) == dims[1], (path, arr)
                out.append("Definition %s : list (list N) :=\n  [" % dn + ";\n   ".join(fmt(r, 8) for r in v) + "].\n")
            else:
                out.append("Definition %s : list N :=\n  " % dn + fmt(v, 8) + ".\n")
        fn = "Const%s.v" % name.capitalize()
        open(os.path.join(OUT, fn), "w").write("\n".join(out))
        print(fn, len(out))
main()
