#!/usr/bin/env python3
"""Transcribe the CRC tables of /repo/includes/crc.hpp into rocq/theories/CrcTables.v."""
import os, re, sys
root = os.path.dirname(os.path.dirname(os.path.abspath(__file__)))
lines = open(sys.argv[1] if len(sys.argv) > 1 else "/repo/includes/crc.hpp").read().split("\n")
out = ["(** The lookup tables of includes/crc.hpp, transcribed by tools/crctables.py. *)",
       "From Coq Require Import ZArith List.", "Import ListNotations.", "Open Scope Z_scope.", ""]
i = 0
while i < len(lines):
    m = re.match(r"(?:static )?const uint32_t (\w+)\[(\d*)\] *=", lines[i])
    if m:
        j = i
        body = ""
        while "};" not in lines[j]:
            j += 1
            body += lines[j]
        vals = re.findall(r"0x([0-9A-Fa-f]{8})L?", body)
        assert len(vals) == 256, (m.group(1), len(vals))
        out.append("(* includes/crc.hpp:%d-%d *)" % (i + 1, j + 1))
        out.append("Definition %s : list Z := [" % m.group(1))
        for k in range(0, 256, 8):
            out.append("  " + "; ".join("0x" + v.upper() for v in vals[k:k + 8]) + (";" if k < 248 else ""))
        out.append("].")
        out.append("")
        i = j
    i += 1
open(root + "/rocq/theories/CrcTables.v", "w").write("\n".join(out))
