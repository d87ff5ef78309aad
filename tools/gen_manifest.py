#!/usr/bin/env python3
"""Write MANIFEST.json from the theorem names in rocq/theories/Props*.v and tools/notes.json.

A theorem cNN_... belongs to property CNN. notes.json maps a property to
{"status": ..., "note": ...}; the status defaults to "proved"."""
import glob, json, os, re
root = os.path.join(os.path.dirname(os.path.abspath(__file__)), "..")
notes = json.load(open(os.path.join(root, "tools", "notes.json")))
names = {}
for f in sorted(glob.glob(os.path.join(root, "rocq/theories/Props*.v"))):
    for n in re.findall(r"^Theorem (c(\d\d+)_\w+)", open(f).read(), re.M):
        names.setdefault("C" + n[1], []).append(n[0])
claims = []
for line in open(os.path.join(root, "properties.jsonl")):
    pid = json.loads(line)["id"]
    if pid not in names:
        print("no theorem yet:", pid)
        continue
    n = notes.get(pid, {})
    status = n.get("status", "partial" if all(t.endswith("_partial") for t in names[pid]) else "proved")
    claims.append({"property": pid, "status": status, "theorems": names[pid], "note": n.get("note", "")})
json.dump({"claims": claims}, open(os.path.join(root, "MANIFEST.json"), "w"), indent=1, ensure_ascii=False)
print(len(claims), "claims")
