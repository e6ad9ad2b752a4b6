"""Write properties.jsonl and MANIFEST.json from props.py, notes.py and the theorems in rocq/theories/P*.v.

A property is "partial" when one of its theorems is named *_refuted or *_partial.
"""
import json, os, re, sys, glob
here = os.path.dirname(os.path.abspath(__file__))
sys.path.insert(0, here)
import genp
from props import PROPS
from notes import NOTES
root = os.path.dirname(here)
with open(os.path.join(root, "properties.jsonl"), "w") as f:
    for p in PROPS:
        f.write(json.dumps({k: p[k] for k in ("id", "title", "statement", "quantifier", "why_tests_cant", "anchors")}, ensure_ascii=False) + "\n")
claims, todo = [], []
for p in PROPS:
    ths = [n for n in genp.names if n.split("_")[0] == p["id"]]
    note = NOTES.get(p["id"], "")
    if not ths:
        if p["status"] == "not_applicable":
            claims.append(dict(property=p["id"], status="not_applicable", theorems=[], note=note))
        else:
            todo.append(p["id"])
        continue
    partial = any("_refuted" in t or "_partial" in t for t in ths)
    if partial and not note:
        print("no note for partial", p["id"])
    claims.append(dict(property=p["id"], status="partial" if partial else "proved", theorems=ths, note=note))
ids = {p["id"] for p in PROPS}
for n in genp.names:
    if n.split("_")[0] not in ids:
        print("theorem without property:", n)
with open(os.path.join(root, "MANIFEST.json"), "w") as f:
    json.dump({"claims": claims}, f, indent=1, ensure_ascii=False)
    f.write("\n")
print(len(claims), "claims,", sum(c["status"] == "proved" for c in claims), "proved; todo:", " ".join(todo))
