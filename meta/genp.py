"""Write rocq/theories/P*.v from the lemmas named C.._pf in rocq/theories/L*.v.

Each `Lemma Cnn_x_pf : S. Proof. ... Qed.` of LX.v becomes
`Theorem Cnn_x : S. Proof. exact (@Cnn_x_pf). Qed. Print Assumptions Cnn_x.` in PX.v;
the Examples kept in the comments (*@ ... @*) of LX.v follow their theorem.
"""
import re, glob, os
root = os.path.join(os.path.dirname(os.path.abspath(__file__)), "..", "rocq", "theories")
names = {}
for path in sorted(glob.glob(os.path.join(root, "L*.v"))):
    src = open(path).read()
    base = os.path.basename(path)[:-2]
    items = []
    for m in re.finditer(r"^Lemma (C\d+\w*)_pf :\s+(.*?)\.\nProof\.|\(\*@\s(.*?)@\*\)", src, re.S | re.M):
        items.append(m)
    if not any(m.group(1) for m in items):
        continue
    imports = re.findall(r"^From Verif Require Import (.*?)\.$", src, re.M)
    mods = []
    for i in imports:
        mods += i.split()
    coq = re.findall(r"^From (?:Coq|Verif) .*?\.$", src, re.M)
    out = ["(** Property theorems; generated from %s.v by meta/genp.py. *)" % base]
    out.append("From Verif Require Import %s." % " ".join(mods + [base]))
    out.append("")
    for m in items:
        if m.group(1):
            n, s = m.group(1), m.group(2)
            assert n not in names, n
            names[n] = base
            out.append("Theorem %s : %s.\nProof. exact (@%s_pf). Qed.\nPrint Assumptions %s.\n" % (n, s, n, n))
        else:
            out.append(m.group(3).rstrip() + "\n")
    text = "\n".join(out)
    p = os.path.join(root, "P" + base[1:] + ".v")
    if not os.path.exists(p) or open(p).read() != text:
        open(p, "w").write(text)
if __name__ == "__main__":
    print(len(names), "theorems")
