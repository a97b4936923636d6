#!/usr/bin/env python3
"""Regenerate rocq/_CoqProject and MANIFEST.json. Theorem names are read from the
Prop_*.v files: a theorem cNN_... belongs to property CNN."""
import glob, json, os, re, sys
root = os.path.dirname(os.path.dirname(os.path.abspath(__file__)))
th = os.path.join(root, "rocq", "theories")
files = sorted(os.path.basename(f) for f in glob.glob(os.path.join(th, "*.v")))
order = {"M": 0, "S": 1, "P": 2, "Prop": 3}
files.sort(key=lambda f: (order[f.split("_")[0]], f))
with open(os.path.join(root, "rocq", "_CoqProject"), "w") as o:
    o.write("-Q theories Verif\n")
    for f in files:
        o.write("theories/%s\n" % f)
thms = {}
for f in files:
    if f.startswith("Prop_"):
        for n in re.findall(r"^Theorem\s+(c\d+_\w+)", open(os.path.join(th, f)).read(), re.M):
            thms.setdefault("C" + re.match(r"c(\d+)_", n).group(1), []).append(n)
notes = json.load(open(os.path.join(root, "tools", "notes.json")))
ids = [json.loads(l)["id"] for l in open(os.path.join(root, "properties.jsonl"))]
claims = []
for i in ids:
    n = notes.get(i, {})
    ts = thms.get(i, [])
    st = n.get("status")
    if not ts:
        st = "partial"
    elif st is None:
        st = "partial" if any(t.endswith("_partial") or t.endswith("_refuted") for t in ts) else "proved"
    claims.append({"property": i, "status": st, "theorems": ts,
                   "note": n.get("note", "" if ts else "Not proved yet.")})
with open(os.path.join(root, "MANIFEST.json"), "w") as o:
    json.dump({"claims": claims}, o, indent=1)
    o.write("\n")
print({s: sum(c["status"] == s for c in claims) for s in ("proved", "partial", "not_applicable")})
