"""Append properties to properties.jsonl and plan lines to DESIGN.md (stdin: one JSON object per
line with the property fields and "plan")."""
import json, sys
have = {json.loads(l)["id"] for l in open("/verif/properties.jsonl")}
for line in sys.stdin:
    if not line.strip():
        continue
    d = json.loads(line)
    plan = d.pop("plan")
    if d["id"] in have:
        continue
    open("/verif/properties.jsonl", "a").write(json.dumps(d, ensure_ascii=False) + "\n")
    open("/verif/DESIGN.md", "a").write("- **%s %s** - %s\n" % (d["id"], d["title"], plan))
