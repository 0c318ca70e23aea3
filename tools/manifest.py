"""Write MANIFEST.json: the theorems named Cnn_* of theories/Prop*.v, with status and note per property."""
import json, re, glob, os
root = os.path.dirname(os.path.dirname(os.path.abspath(__file__)))
notes = json.load(open(os.path.join(root, "tools", "notes.json")))
ths = {}
for f in sorted(glob.glob(os.path.join(root, "rocq/theories/Prop*.v"))):
    text = re.sub(r"\(\*.*?\*\)", "", open(f).read(), flags=re.S)
    for m in re.finditer(r"^Theorem ((C\d\d)_\w+)", text, re.M):
        ths.setdefault(m.group(2), []).append(m.group(1))
claims = []
for line in open(os.path.join(root, "properties.jsonl")):
    pid = json.loads(line)["id"]
    n = notes.get(pid, {})
    status = n.get("status", "partial")
    claims.append({"property": pid, "status": status, "theorems": ths.get(pid, []), "note": n.get("note", "")})
json.dump({"claims": claims}, open(os.path.join(root, "MANIFEST.json"), "w"), indent=1)
for c in claims:
    print(c["property"], c["status"], len(c["theorems"]))
