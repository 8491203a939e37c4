#!/usr/bin/env python3
"""Seed wrong programs into a scratch copy of the model and see which theorems fail.

usage: seed.py seeded/mutants_X.json [id ...]

A mutant is {"id","file","definition","old","new","edit","breaks"}.  The edit is
applied to a copy of rocq/ in /tmp/seed.  Each proof that no longer checks is
cut out (in the copy) so that checking goes on, and a manifest theorem counts
as failed when it then depends on a cut proof.  Appends to seeded/LOG.jsonl.
"""
import json, os, re, shutil, subprocess, sys
from concurrent.futures import ThreadPoolExecutor
ROOT = os.path.dirname(os.path.dirname(os.path.abspath(__file__)))
SRC = os.environ.get("SEED_SRC") or os.path.join(ROOT, "rocq")
START = re.compile(r"^\s*(?:Local\s+|Global\s+|#\[[^\]]*\]\s*)?(Lemma|Theorem|Example|Corollary|Fact|Remark|Instance|Proposition)\s+([\w']+)")

def files():
    return [l.strip() for l in open(os.path.join(SRC, "_CoqProject")) if l.strip().endswith(".v")]

def deps():
    out = subprocess.run(["coqdep", "-f", "_CoqProject"], cwd=SRC, capture_output=True, text=True).stdout
    d = {}
    for l in out.splitlines():
        m = re.match(r"(theories/\w+)\.vo .*?: (.*)", l)
        if m:
            d[m.group(1) + ".v"] = [x[:-3] + ".v" for x in m.group(2).split() if x.endswith(".vo")]
    return d

def run(mut):
    work = "/tmp/seed/" + mut["id"]
    shutil.rmtree(work, ignore_errors=True)
    shutil.copytree(SRC, work)
    path = os.path.join(work, "theories", mut["file"])
    t = open(path).read()
    if t.count(mut["old"]) != mut.get("count", 1):
        return dict(mut=mut, error="edit text found %d times" % t.count(mut["old"]))
    open(path, "w").write(t.replace(mut["old"], mut["new"]))
    d = deps()
    dirty, cut, seen = {"theories/" + mut["file"]}, [], set()
    for f in files():
        if f not in dirty and not any(x in dirty for x in d.get(f, [])):
            continue
        dirty.add(f)
        while True:
            try:
                r = subprocess.run(["coqc", "-q", "-Q", "theories", "Verif", f], cwd=work,
                                   capture_output=True, text=True, timeout=1200)
            except subprocess.TimeoutExpired:
                return dict(mut=mut, error="timeout in " + f, cut=cut)
            if r.returncode == 0:
                break
            m = re.search(r'File "\./([^"]+)", line (\d+)', r.stderr)
            if not m or len(cut) > 400:
                return dict(mut=mut, error=r.stderr[-400:], cut=cut)
            lines = open(os.path.join(work, f)).read().split("\n")
            i = int(m.group(2)) - 1
            while i >= 0 and not START.match(lines[i]):
                i -= 1
            if i < 0:
                return dict(mut=mut, error=r.stderr[-400:], cut=cut)
            name = START.match(lines[i]).group(2)
            if (f, name) in seen:
                return dict(mut=mut, error="stuck at %s: %s" % (name, r.stderr[-300:]), cut=cut)
            text = "\n".join(lines[i:])
            mm = re.search(r"\bProof\b[^.]*\.(.*?)\b(Qed|Defined)\.", text, re.S)
            text = text[:mm.start()] + "Proof. Admitted." + text[mm.end():]
            open(os.path.join(work, f), "w").write("\n".join(lines[:i] + [text]))
            cut.append(name)
            seen.add((f, name))
    props = [f for f in files() if os.path.basename(f).startswith("Prop") and f in dirty]
    failed = []
    for f in props:
        mod = os.path.basename(f)[:-2]
        names = re.findall(r"^Theorem (C\d+_\w+)", open(os.path.join(SRC, f)).read(), re.M)
        q = "From Verif Require Import %s.\n" % mod
        for n in names:
            q += 'Goal True. idtac "@@%s". exact I. Qed.\nPrint Assumptions %s.\n' % (n, n)
        open(os.path.join(work, "q_%s.v" % mod), "w").write(q)
        r = subprocess.run(["coqc", "-q", "-Q", "theories", "Verif", "q_%s.v" % mod], cwd=work,
                           capture_output=True, text=True)
        for part in r.stdout.split("@@")[1:]:
            n, rest = part.split("\n", 1)
            if "Closed under" not in rest:
                failed.append(n)
    exs = [c for c in cut if re.search(r"_ex(_|$|\d)", c)]
    shutil.rmtree(work, ignore_errors=True)
    return dict(mut=mut, cut=cut, failed=failed, examples=exs)

def main():
    muts = json.load(open(sys.argv[1]))
    ids = set(sys.argv[2:])
    if ids:
        muts = [m for m in muts if m["id"] in ids]
    log = os.path.join(ROOT, "seeded", "LOG.jsonl")
    with ThreadPoolExecutor(int(os.environ.get("SEED_JOBS", "4"))) as ex:
        for r in ex.map(run, muts):
            m = r["mut"]
            if "error" in r:
                print(m["id"], "ERROR", r["error"], r.get("cut"))
                continue
            rec = dict(id=m["id"], file=m["file"], definition=m["definition"], edit=m["edit"], breaks=m["breaks"],
                       failed=r["failed"], failed_examples=r["examples"],
                       failed_lemmas=[c for c in r["cut"] if c not in r["examples"] and c not in r["failed"]][:12],
                       tightened=m.get("tightened", []))
            hit = [f for f in r["failed"] if any(f.startswith(b + "_") for b in re.findall(r"C\d+", m["breaks"]))]
            if "note" in m:
                rec["note"] = m["note"]
            print(m["id"], "ok" if hit else "SURVIVED", len(r["failed"]), r["failed"], r["examples"], flush=True)
            with open(log, "a") as fo:
                fo.write(json.dumps(rec) + "\n")
main()
