# Generates rocq/theories/Resources.v from the byte arrays in /repo/asap.c (read as text).
import re
src = open('/repo/asap.c').read()
out = ["(* Generated by tools/gen_resources.py from the FuResource_* arrays of /repo/asap.c.",
       "   Binary 6502 routines embedded in the program; data only. *)",
       "From Verif Require Import Base.", ""]
for m in re.finditer(r'static const uint8_t FuResource_(\w+)\[(\d+)\] = \{(.*?)\};', src, re.S):
    name, n, body = m.group(1), int(m.group(2)), m.group(3)
    vals = [int(x, 0) for x in re.findall(r"0x[0-9a-fA-F]+|\d+", body)]
    assert len(vals) == n, name
    line = src.count('\n', 0, m.start()) + 1
    end = src.count('\n', 0, m.end()) + 1
    out.append("(* asap.c:%d-%d FuResource_%s[%d] *)" % (line, end, name, n))
    out.append("Definition res_%s : list Z := [" % name)
    rows = [vals[i:i+24] for i in range(0, n, 24)]
    out.append(";\n".join("  " + "; ".join(map(str, r)) for r in rows))
    out.append("].\n")
open('/verif/rocq/theories/Resources.v', 'w').write("\n".join(out))
