#!/usr/bin/env python3
"""Write MANIFEST.json from the C??_ theorems in rocq/theories/Properties*.v.

Status: not_applicable / partial / notes come from the tables below; a property with no
theorem is left out, a property with a theorem is "proved" unless it is listed as partial.
"""
import json
import pathlib
import re

ROOT = pathlib.Path(__file__).resolve().parent.parent
NOTES = json.loads((ROOT / "tools" / "notes.json").read_text())

theorems = {}
for path in sorted((ROOT / "rocq" / "theories").glob("Properties*.v")):
    for name in re.findall(r"^(?:Theorem|Lemma|Corollary)\s+(C\d\d_\w+)", path.read_text(), re.M):
        theorems.setdefault(name[:3], []).append(name)

claims = []
for line in (ROOT / "properties.jsonl").read_text().splitlines():
    cid = json.loads(line)["id"]
    info = NOTES.get(cid, {})
    if cid not in theorems:
        if info.get("status") == "not_applicable":
            claims.append({"property": cid, "status": "not_applicable", "theorems": [], "note": info["note"]})
        continue
    names = theorems[cid]
    status = info.get("status") or ("partial" if any(n.endswith("_partial") for n in names) else "proved")
    claims.append({"property": cid, "status": status, "theorems": names, "note": info.get("note", "")})
(ROOT / "MANIFEST.json").write_text(json.dumps({"claims": claims}, indent=1) + "\n")
print(len(claims), "claims")
