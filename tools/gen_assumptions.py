#!/usr/bin/env python3
"""Rewrite the Print Assumptions block at the end of each rocq/theories/Properties*.v."""
import glob, os, re

ROOT = os.path.dirname(os.path.dirname(os.path.abspath(__file__)))
for f in sorted(glob.glob(os.path.join(ROOT, "rocq/theories/Properties*.v"))):
    s = open(f).read()
    body = re.sub(r"^Print Assumptions \w+\.\n", "", s, flags=re.M).rstrip("\n")
    names = re.findall(r"^Theorem (\w+)", body, re.M)
    new = body + "\n\n" + "".join("Print Assumptions %s.\n" % n for n in names)
    if new != s:
        open(f, "w").write(new)
