#!/usr/bin/env python3
"""Seeded-bug experiments: edit the model in a scratch copy and see which theorems fail.

usage: mutate.py MUTATIONS.json OUT.jsonl

MUTATIONS.json is a list of {"file", "definition", "old", "new", "edit", "claim"}. For each
one the theories are copied to a scratch directory, the edit is made, and everything is
rebuilt; a lemma whose proof no longer goes through is cut to Admitted in the scratch copy
so that the build can go on, and at the end the property theorems that fail themselves or
whose proofs use such a lemma, directly or through other proofs, are listed. The scratch
copy is built without its Print Assumptions commands, which take most of the time.
"""
import bisect
import json
import os
import pathlib
import re
import shutil
import subprocess
import sys

ROOT = pathlib.Path(os.environ.get("BASE") or pathlib.Path(__file__).resolve().parent.parent / "rocq")
START = re.compile(r"^\s*(?:#\[\w+\]\s*)?(?:Lemma|Theorem|Example|Corollary|Fact|Remark|Proposition|Instance)\s+([\w']+)")


def order():
    return [l.strip() for l in (ROOT / "_CoqProject").read_text().splitlines() if l.strip().endswith(".v")]


def deps(files):
    """direct dependencies among our files, from the Require lines"""
    out = {}
    for f in files:
        text = (ROOT / f).read_text()
        names = set()
        for m in re.findall(r"From Verif Require Import ([^.]*)\.", text):
            names |= set(m.split())
        out[f] = {"theories/%s.v" % n for n in names}
    return out


def cut(path, line):
    lines = path.read_text().split("\n")
    i = min(line, len(lines)) - 1
    while i >= 0 and not START.match(lines[i]):
        i -= 1
    if i < 0:
        return None
    name = START.match(lines[i]).group(1)
    text = "\n".join(lines[i:])
    p = re.search(r"\bProof\b[^.]*\.", text)
    q = re.search(r"\b(?:Qed|Defined)\.", text)
    if not p or not q or p.start() > q.start():
        return None
    text = text[: p.start()] + "Admitted." + text[q.end():]
    path.write_text("\n".join(lines[:i]) + "\n" + text)
    return name


def coqc(work, f):
    r = subprocess.run("ulimit -v 8000000; timeout 600 coqc -time -Q theories Verif %s" % f, shell=True, cwd=work,
                       capture_output=True, text=True)
    return r.returncode, r.stdout, r.stderr


def references(files, work):
    """which definition or proof refers to which, as the compiler resolved the names (the .glob files)

    Names used by hints and inside Ltac definitions may be missed, so fewer theorems are listed rather than more."""
    users, full = {}, {}
    for f in files:
        mod = pathlib.Path(f).stem
        at, refs = [], []
        for line in (work / f).with_suffix(".glob").read_text(errors="replace").splitlines():
            m = re.match(r"(?:prf|def|thm|ind|rec|inst|coe) (\d+):\d+ \S+ (\S+)", line)
            if m:
                at.append((int(m[1]), m[2]))
            m = re.match(r"R(\d+):\d+ Verif\.(\S+) \S+ (\S+) (?:thm|def|prf|lem|inst|ind|constr|proj|rec)\b", line)
            if m:
                refs.append((int(m[1]), m[2] + "." + m[3]))
        at.sort()
        places = [a[0] for a in at]
        for _, n in at:
            full.setdefault(n, set()).add(mod + "." + n)
        for pos, r in refs:
            i = bisect.bisect_right(places, pos) - 1
            if i >= 0:
                users.setdefault(r, set()).add(mod + "." + at[i][1])
    return users, full


def tainted(failed, files, work):
    users, full = references(files, work)
    todo = [q for n in failed for q in full.get(n, {n})]
    bad = set(todo)
    while todo:
        for q in users.get(todo.pop(), set()) - bad:
            bad.add(q)
            todo.append(q)
    return {q.split(".")[-1] for q in bad}


def run(m, work):
    if work.exists():
        shutil.rmtree(work)
    shutil.copytree(ROOT, work)
    path = work / "theories" / m["file"]
    text = path.read_text()
    if text.count(m["old"]) != 1:
        return {"error": "old text occurs %d times" % text.count(m["old"])}
    path.write_text(text.replace(m["old"], m["new"]))
    files = order()
    for f in files:
        if pathlib.Path(f).name.startswith("Properties"):
            (work / f).write_text(re.sub(r"(?m)^Print Assumptions.*$", "", (work / f).read_text()))
    dep = deps(files)
    dirty = {"theories/" + m["file"]}
    failed = []
    for f in files:
        if f not in dirty and not (dep[f] & dirty):
            continue
        dirty.add(f)
        tries = 0
        while True:
            rc, out, err = coqc(work, f)
            if rc == 0:
                break
            mm = re.search(r'File "[^"]*", line (\d+)', err)
            if mm:
                line = int(mm.group(1))
            else:  # out of time or memory: the sentence behind the last one that went through
                at = [int(x) for x in re.findall(r"(?m)^Chars \d+ - (\d+) ", out)]
                line = (work / f).read_bytes()[: (at[-1] if at else 0) + 2].count(b"\n") + 1
            name = cut(work / f, line)
            tries += 1
            if not name or tries > 60:
                return {"error": "cannot continue in %s: %s" % (f, err[-400:]), "failed": failed}
            failed.append(name)
    props = sorted(n for n in tainted(failed, files, work) if re.match(r"C\d\d_", n) and "_example" not in n) if failed else []
    return {"failed": failed, "properties": props}


def main():
    muts = json.loads(pathlib.Path(sys.argv[1]).read_text())
    work = pathlib.Path("/tmp/mut") / pathlib.Path(sys.argv[1]).stem
    work.parent.mkdir(exist_ok=True)
    for m in muts:
        r = run(m, work)
        rec = {"definition": m["definition"], "edit": m["edit"], "claim": m["claim"], **r}
        with open(sys.argv[2], "a") as f:
            f.write(json.dumps(rec) + "\n")
        print(json.dumps(rec)[:600], flush=True)


if __name__ == "__main__":
    main()
