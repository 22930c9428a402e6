#!/usr/bin/env python3
"""Mutation testing of the model, in a scratch copy outside /verif.

    mutate.py BASE WORK MUTANTS.json LOG.jsonl [id...]

BASE is a built copy of /verif/rocq, WORK a scratch directory.  For each mutant the
edit is made in WORK and everything that depends on it rebuilt.  A proof that fails is
replaced by Admitted so that the build can go on; afterwards Print Assumptions tells
which theorems of the manifest rest on a failed proof.  One line per mutant is appended
to the log.  With FAST=1 only the files with the theorems of the claim are rebuilt (with
all that they need), and the log line says which.  Files with examples only are left out
unless the mutant names them in "also"."""
import json, os, re, subprocess, sys, time

base, work, mutants, log = sys.argv[1:5]
only = sys.argv[5:]
here = os.path.dirname(os.path.dirname(os.path.abspath(__file__)))
claims = json.load(open(f"{here}/MANIFEST.json"))["claims"]
theorems = [t for c in claims for t in c["theorems"]]
jobs = os.environ.get("JOBS", "3")

def sh(cmd, **k):
    return subprocess.run(cmd, shell=True, capture_output=True, text=True, **k)

def enclosing(lines, n):
    """The statement containing line n (0-based), or None."""
    start = min(n, len(lines) - 1)
    while start >= 0 and not re.match(r"\s*(Lemma|Theorem|Example|Corollary|Fact|Instance|#\[)", lines[start]):
        start -= 1
    if start < 0:
        return None
    end = start
    while end < len(lines) and not re.search(r"\b(Qed|Defined|Admitted)\.\s*$", lines[end]):
        end += 1
    if end < n or end >= len(lines):
        return None
    return start, end

def admit(path, line):
    lines = open(path).read().split("\n")
    r = enclosing(lines, line - 1)
    if r is None:
        return None
    start, end = r
    text = "\n".join(lines[start:end + 1])
    m = re.search(r"(?<![\w'])Proof\b[^.]*\.", text)
    if not m or "Admitted." in text:
        return None
    name = re.match(r"\s*\w+\s+([\w']+)", text).group(1)
    lines[start:end + 1] = (text[:m.start()] + "Proof. Admitted.").split("\n")
    open(path, "w").write("\n".join(lines))
    return name

home = {}
for f in sh(f"ls {base}/theories/Properties*.v").stdout.split():
    for t in re.findall(r"^Theorem (\w+)", open(f).read(), re.M):
        home[t] = os.path.basename(f)[:-2]
all_theorems = [t for t in theorems if t in home]

for m in json.load(open(mutants)):
    if only and m["id"] not in only:
        continue
    t0 = time.time()
    sh(f"rm -rf {work} && cp -a {base} {work}")
    path = f"{work}/theories/{m['file']}.v"
    src = open(path).read()
    if src.count(m["old"]) != 1:
        print(m["id"], "edit does not apply:", src.count(m["old"]), flush=True)
        continue
    open(path, "w").write(src.replace(m["old"], m["new"]))
    failed, note = [], ""
    targets, theorems = "", all_theorems
    if os.environ.get("FAST"):
        want = set(re.findall(r"C\d+", m["claim"]))
        files = sorted({home[t] for t in all_theorems if t.split("_")[0] in want})
        theorems = [t for t in all_theorems if home[t] in files] or all_theorems
        targets = " ".join(f"theories/{f}.vo" for f in files + m.get("also", []))
    while True:
        p = sh(f"cd {work} && make -k -j{jobs} TIMECMD='timeout 1200' {targets} 2>&1")
        if p.returncode == 0:
            break
        places = sorted(set(re.findall(r'File "\./theories/(\w+)\.v", line (\d+), characters[^\n]*\n(?:Error|In nested)', p.stdout)))
        if not places:
            places = sorted(set(re.findall(r'File "\./theories/(\w+)\.v", line (\d+)[^\n]*\n(?!Warning)', p.stdout)))
        places = sorted({f: (f, l) for f, l in reversed(places)}.values())  # one place per file and round
        names = [(f, admit(f"{work}/theories/{f}.v", int(l))) for f, l in places]
        if not names or None in [n for _, n in names]:
            note = "build stopped at " + str(names) + p.stdout[-600:]
            break
        failed += [f"{f}.{n}" for f, n in names]
    broken = []
    if not note:
        with open(f"{work}/theories/Assumed.v", "w") as f:
            mods = sorted({home[t] for t in theorems})
            f.write(f"From Verif Require Import {' '.join(mods)}.\n")
            for t in theorems:
                f.write(f"Print Assumptions {t}.\n")
        out = sh(f"cd {work} && coqc -Q theories Verif theories/Assumed.v").stdout
        parts = re.split(r"(?=^Closed under|^Axioms:|^Section Variables:)", out, flags=re.M)[1:]
        assert len(parts) == len(theorems), (len(parts), len(theorems))
        broken = [t for t, p in zip(theorems, parts) if not p.startswith("Closed")]
    examples = [n for n in failed if "_case" in n]
    rec = {"id": m["id"], "definition": m["definition"], "edit": m["edit"], "claim": m["claim"],
           "theorems_failed": broken,
           "proofs_failed": [n for n in failed if n not in examples],
           "examples_failed": examples,
           "theorems_tightened": m.get("tightened", [])}
    if targets:
        rec["rebuilt"] = files + m.get("also", [])
    if note:
        rec["note"] = note
    open(log, "a").write(json.dumps(rec, ensure_ascii=False) + "\n")
    print(m["id"], m["claim"], "broken:", len(broken), "proofs:", len(failed), f"{time.time() - t0:.0f}s", note[:300], flush=True)
