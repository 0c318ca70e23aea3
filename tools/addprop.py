"""Add or replace a line of properties.jsonl / an entry of tools/notes.json (helper for editing)."""
import json, os
root = os.path.dirname(os.path.dirname(os.path.abspath(__file__)))
def prop(**kw):
    f = os.path.join(root, "properties.jsonl")
    rows = [json.loads(l) for l in open(f)]
    for r in rows:
        if r["id"] == kw["id"]:
            r.update(kw); break
    else:
        rows.append(kw)
    open(f, "w").write("".join(json.dumps(r, ensure_ascii=False) + "\n" for r in rows))
def note(pid, status, text):
    f = os.path.join(root, "tools", "notes.json")
    n = json.load(open(f)); n[pid] = {"status": status, "note": text}
    json.dump(n, open(f, "w"), indent=1)
