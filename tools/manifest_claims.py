# Writes ../MANIFEST.json from the table below and checks that every theorem named exists.
import json, re, glob, os
here = os.path.dirname(os.path.abspath(__file__))
C = []
def claim(p, status, theorems, note=""):
    C.append({"property": p, "status": status, "theorems": theorems.split(), "note": note})
R = "REFUTED as stated. "
exec(open(os.path.join(here, "claims.txt")).read())
names = set()
for f in glob.glob(os.path.join(here, "../rocq/theories/*.v")):
    names |= set(re.findall(r"^(?:Theorem|Corollary)\s+(\w+)", open(f).read(), re.M))
used = set()
for c in C:
    for t in c["theorems"]:
        assert t in names, (c["property"], t)
        used.add(t)
props = [json.loads(l)["id"] for l in open(os.path.join(here, "../properties.jsonl"))]
have = [c["property"] for c in C]
assert len(set(have)) == len(have)
print("missing claims:", [p for p in props if p not in have])
print("unused theorems:", sorted(n for n in names - used if re.match(r"C\d+", n)))
json.dump({"claims": sorted(C, key=lambda c: c["property"])}, open(os.path.join(here, "../MANIFEST.json"), "w"), indent=1, ensure_ascii=False)
