#!/usr/bin/env python3
"""Prints the assumptions of every theorem in MANIFEST.json. Run in /verif/rocq after a build."""
import json, os, re, subprocess, sys

here = os.path.dirname(os.path.abspath(__file__))
claims = json.load(open(os.path.join(here, "..", "MANIFEST.json")))["claims"]
names = {t for c in claims for t in c["theorems"]}
theories = os.path.join(here, "..", "rocq", "theories")
for f in sorted(os.listdir(theories)):
    if not (f.startswith("P_") and f.endswith(".v")):
        continue
    mod = f[:-2]
    mine = [t for t in re.findall(r"^(?:Theorem|Corollary|Lemma)\s+(\w+)", open(os.path.join(theories, f)).read(), re.M) if t in names]
    if not mine:
        continue
    script = f"From Verif Require {mod}.\n" + "".join(f"Print Assumptions Verif.{mod}.{t}.\n" for t in mine)
    out = subprocess.run(["coqtop", "-q", "-Q", theories, "Verif"], input=script, capture_output=True, text=True).stdout
    answers = re.findall(r"Closed under the global context|Axioms:\n(?:.+\n)+", out)
    for t, a in zip(mine, answers):
        print(f"{mod}.{t}: {a}", flush=True)
    if len(answers) != len(mine):
        print(f"{mod}: {len(answers)} answers for {len(mine)} theorems", flush=True)
