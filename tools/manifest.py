#!/usr/bin/env python3
"""Rebuild MANIFEST.json and rocq/_CoqProject from the Prop*.v files and status.json."""
import glob, json, os, re
root = os.path.dirname(os.path.dirname(os.path.abspath(__file__)))
status = json.load(open(os.path.join(root, "tools", "status.json")))
props = [json.loads(l)["id"] for l in open(os.path.join(root, "properties.jsonl")) if l.strip()]
names = {p: [] for p in props}
for f in sorted(glob.glob(os.path.join(root, "rocq/theories/Prop*.v"))):
    txt = open(f).read()
    ths = [m.group(1) for m in re.finditer(r"^ *Theorem (C\d\d\d?_\w+)", txt, re.M)]
    for t in ths:
        names[t.split("_")[0]].append(t)
    # every theorem has its assumptions printed at the end of the file
    body = re.split(r"^Print Assumptions", txt, 1, re.M)[0].rstrip() + "\n\n"
    new = body + "".join("Print Assumptions %s.\n" % t for t in ths)
    if new != txt:
        open(f, "w").write(new)
claims = []
for p in props:
    st = status.get(p)
    if st is None and not names[p]:
        claims.append({"property": p, "status": "partial", "theorems": [], "note": "not yet modelled"})
        continue
    st = st or ["partial", "work in progress"]
    claims.append({"property": p, "status": st[0], "theorems": names[p], "note": st[1]})
json.dump({"claims": claims}, open(os.path.join(root, "MANIFEST.json"), "w"), indent=1)
vs = sorted(os.path.relpath(f, os.path.join(root, "rocq")) for f in glob.glob(os.path.join(root, "rocq/theories/*.v")))
open(os.path.join(root, "rocq/_CoqProject"), "w").write("-Q theories Verif\n\n" + "\n".join(vs) + "\n")
for c in claims: print(c["property"], c["status"], len(c["theorems"]))
