#!/usr/bin/env python3
"""Regenerate MANIFEST.json from the theorem names in rocq/theories/Properties.

A theorem belongs to the property its name begins with (C01_...).  Status:
proved, unless some theorem of the property ends in _partial (partial) or the
property is listed in STATUS below.  Notes are in tools/notes.json.
"""
import json, re, pathlib
root = pathlib.Path(__file__).resolve().parent.parent
notes = json.loads((root / "tools/notes.json").read_text())
thms = {}
for f in sorted((root / "rocq/theories/Properties").glob("*.v")):
    for m in re.finditer(r"^\s*Theorem\s+((C\d+)_\w+)", f.read_text(), re.M):
        thms.setdefault(m.group(2), []).append(m.group(1))
claims = []
for line in (root / "properties.jsonl").read_text().splitlines():
    pid = json.loads(line)["id"]
    n = notes.get(pid, {})
    ts = thms.get(pid, [])
    if not ts:
        if n.get("status") != "not_applicable":
            continue
        status = "not_applicable"
    else:
        status = n.get("status") or (
            "partial" if any(t.endswith("_partial") for t in ts) else "proved")
    claims.append({"property": pid, "status": status, "theorems": ts,
                   "note": n.get("note", "")})
(root / "MANIFEST.json").write_text(json.dumps({"claims": claims}, indent=1) + "\n")
print(len(claims), "claims", sum(len(c["theorems"]) for c in claims), "theorems",
      [c["property"] for c in claims if c["status"] != "proved"])
