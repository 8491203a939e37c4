#!/usr/bin/env python3
"""Generate small edits of the model mechanically and report those that no manifest theorem notices.

usage: automut.py built-copy-of-rocq out.jsonl [Model.v ...]

Operators: constants, comparisons, connectives, booleans, exceptions, negated
conditions, dropped statements, swapped projections and variables of the same
type (ill-typed edits are discarded).  For each edit the dependents are rebuilt
until a proof fails on which a manifest theorem depends (by the .glob
reference graph); examples and toy instances that fail are cut out and the
build goes on.
"""
import json, os, re, shutil, subprocess, sys, random, collections
from concurrent.futures import ThreadPoolExecutor
SRC, OUT = os.path.abspath(sys.argv[1]), sys.argv[2]
MODELS = sys.argv[3:]
MAXPER = int(os.environ.get("MAXPER", "14"))
JOBS = int(os.environ.get("JOBS", "4"))
random.seed(int(os.environ.get("SEED", "1")))
START = re.compile(r"^\s*(?:Local\s+|Global\s+|#\[[^\]]*\]\s*)?(Lemma|Theorem|Example|Corollary|Fact|Remark|Instance|Proposition)\s+([\w']+)")
TH = os.path.join(SRC, "theories")
FILES = [l.strip()[9:-2] for l in open(os.path.join(SRC, "_CoqProject")) if l.strip().endswith(".v")]
SKIP = {"TestVectors"}

def deps():
    out = subprocess.run(["coqdep", "-f", "_CoqProject"], cwd=SRC, capture_output=True, text=True).stdout
    d = {}
    for l in out.splitlines():
        m = re.match(r"theories/(\w+)\.vo .*?: (.*)", l)
        if m:
            d[m.group(1)] = [os.path.basename(x)[:-3] for x in m.group(2).split() if x.endswith(".vo")]
    return d
DEPS = deps()

# reference graph from .glob files: name -> names it uses; only proofs matter for reaching
def refgraph():
    used_by = collections.defaultdict(set)
    for f in FILES:
        p = os.path.join(TH, f + ".glob")
        if not os.path.exists(p): continue
        src = open(os.path.join(TH, f + ".v"), "rb").read()
        starts = []
        refs = []
        for l in open(p, errors="replace"):
            a = l.split()
            if not a: continue
            if re.match(r"^(def|prf|thm|ind|rec|ax|inst|constr|proj)$", a[0]) and len(a) >= 4:
                if a[0] in ("def", "prf", "thm", "inst", "ax"):
                    starts.append((int(a[1].split(":")[0]), f + "." + a[3]))
            elif a[0].startswith("R") and len(a) >= 5:
                m = re.match(r"R(\d+):", a[0])
                if a[1].startswith("Verif.") and a[3] != "<>":
                    refs.append((int(m.group(1)), a[1][6:] + "." + a[3]))
        starts.sort()
        import bisect
        pos = [s[0] for s in starts]
        for o, n in refs:
            i = bisect.bisect_right(pos, o) - 1
            if i >= 0: used_by[n].add(starts[i][1])
    return used_by
USED = refgraph()
def reaches(name):
    seen, todo, hit = {name}, [name], set()
    while todo:
        n = todo.pop()
        b = n.split(".")[-1]
        if re.match(r"C\d+_(?!ex)", b) and n.startswith("Prop"): hit.add(b)
        for u in USED.get(n, ()):
            if u not in seen: seen.add(u); todo.append(u)
    return sorted(hit)

def mask(t):
    """comments and strings blanked"""
    o = list(t); i = 0; depth = 0
    while i < len(t):
        if t.startswith("(*", i): depth += 1; o[i] = o[i+1] = " "; i += 2; continue
        if depth and t.startswith("*)", i): depth -= 1; o[i] = o[i+1] = " "; i += 2; continue
        if depth and t[i] != "\n": o[i] = " "
        if not depth and t[i] == '"':
            j = t.index('"', i + 1)
            for k in range(i, j + 1): o[k] = "_"
            i = j + 1; continue
        i += 1
    return "".join(o)

EXN = ["EValue", "ERuntime", "EType", "EIndex", "EAssert"]
def mutants(model):
    t = open(os.path.join(TH, model)).read()
    m = mask(t)
    out = []
    heads = [(x.start(), x.group(2)) for x in re.finditer(r"^(Definition|Fixpoint)\s+([\w']+)", m, re.M)]
    ends = [x.start() for x in re.finditer(r"^(Definition|Fixpoint|Record|Inductive|Section|End|Notation|Lemma|Theorem|Local|Variable|Declare|Arguments|Proof)\b", m, re.M)] + [len(m)]
    for s, name in heads:
        e = min(x for x in ends if x > s)
        body0 = m.find(":=", s)
        if body0 < 0 or body0 > e: continue
        body0 += 2
        cand = []
        def add(a, b, new, op): cand.append((a, b, new, op))
        seg = m[body0:e]
        for x in re.finditer(r"(?<![\w.'])(0x[0-9a-fA-F]+|\d+)(?![\w.'])", seg):
            v = int(x.group(1), 0)
            add(x.start(), x.end(), str(v + 1), "const+1")
            if v > 1: add(x.start(), x.end(), str(v - 1), "const-1")
        for x in re.finditer(r"(?<![\w'])x([0-9a-f]{2})(?![\w'])", seg):
            add(x.start(), x.end(), "x%02x" % ((int(x.group(1), 16) + 1) % 256), "byte")
        for pat, news in [(r"<=\?", ["<?"]), (r"<\?", ["<=?"]), (r"(?<![<>])=\?", ["<=?", "<?"]), (r"&&", ["||"]), (r"\|\|", ["&&"]),
                          (r"\bnegb\b", ["(fun b : bool => b)"]), (r"\btrue\b", ["false"]), (r"\bfalse\b", ["true"]),
                          (r"\bfst\b", ["snd"]), (r"\bsnd\b", ["fst"]), (r"\bfirstn\b", ["skipn"]), (r"\bskipn\b", ["firstn"]),
                          (r"\bexistsb\b", ["forallb"]), (r"\bforallb\b", ["existsb"]), (r"(?<= )\+(?= )", ["-"]), (r"(?<= )-(?= )", ["+"]),
                          (r"\bNone\b", []), (r"\bZ\.land\b", ["Z.lor"]), (r"\bZ\.lor\b", ["Z.land", "Z.lxor"]), (r"\bNat\.min\b", ["Nat.max"]),
                          (r"\bhd\b", []), (r"\brev\b", ["(fun l => l)"]), (r"\btl\b", ["(fun l => l)"]), (r"\binit\b", [])]:
            for x in re.finditer(pat, seg):
                for nw in news: add(x.start(), x.end(), nw, "op " + x.group(0) + " -> " + nw)
        for x in re.finditer(r"\b(Raise|mraise|hraise|pfail) (E\w+)", seg):
            nw = random.choice([q for q in EXN if q != x.group(2)])
            add(x.start(2), x.end(2), nw, "exception")
        for x in re.finditer(r"\bif\s+((?:(?!\bif\b|\bthen\b|\bmatch\b).)+?)\s+then\b", seg, re.S):
            if ":" in x.group(1): continue
            add(x.start(1), x.end(1), "negb (%s)" % t[body0 + x.start(1): body0 + x.end(1)], "negated condition")
        for x in re.finditer(r"_ <[-~] (?:(?!;;|<-|<~).)+;;", seg, re.S):
            add(x.start(), x.end(), "", "dropped statement")
        for x in re.finditer(r"let! _ := (?:(?!\bin\b|let).)+ in\b", seg, re.S):
            add(x.start(), x.end(), "", "dropped check")
        for x in re.finditer(r"([\w.'()]+ )\+\+ ", seg):
            add(x.start(), x.end(), "", "dropped part of a concatenation")
        ids = [x for x in re.finditer(r"(?<![\w.'])([a-zA-Z_][\w']*)(?![\w'])", m[s:e])
               if x.group(1) not in ("if","then","else","match","with","end","let","in","fun","Definition","Fixpoint","return","as","struct","bool","nat","Z","bytes","list","res","option","unit", name)]
        names = sorted({x.group(1) for x in ids})
        zones = [(z.start(), z.end()) for z in re.finditer(r"\|[^|]*?=>|\bfun\b[^=]*=>|\blet!? ?'?[^=]*:=|\bdo! [^=]*:=|[\w']+ <[-~]|\bwith\b\s*[^|]{0,40}?=>", m[s:e])]
        occ = [x for x in ids if x.start() + s >= body0 and not any(a <= x.start() < b for a, b in zones)]
        tries = []
        for x in occ:
            for n2 in names:
                if n2 != x.group(1): tries.append((x.start() + s - body0, x.end() + s - body0, n2, "%s -> %s" % (x.group(1), n2)))
        random.shuffle(tries)
        uniq = {}
        for c in cand: uniq.setdefault((c[0], c[1], c[2]), c)
        cand = list(uniq.values()); random.shuffle(cand)
        out.append((name, body0, cand, tries))
    return t, out

def line_of(t, off): return t.count("\n", 0, off) + 1

def link_tree(work):
    shutil.rmtree(work, ignore_errors=True)
    os.makedirs(work + "/theories")
    for f in FILES:
        for ext in (".vo", ".v"):
            os.link(os.path.join(TH, f + ext), os.path.join(work, "theories", f + ext))

def coqc(work, f, to=900):
    for ext in (".vo", ".vok", ".vos", ".glob"):
        p = os.path.join(work, "theories", f + ext)
        if os.path.exists(p): os.unlink(p)
    return subprocess.run(["coqc", "-q", "-noglob", "-Q", "theories", "Verif", "theories/" + f + ".v"], cwd=work, capture_output=True, text=True, timeout=to)

def write(work, f, text):
    p = os.path.join(work, "theories", f + ".v")
    if os.path.exists(p): os.unlink(p)
    open(p, "w").write(text)

def run(mut):
    work = "/tmp/auto/w%s" % mut["n"]
    try:
        return run1(mut, work)
    except subprocess.TimeoutExpired:
        return dict(mut, status="timeout")
    finally:
        shutil.rmtree(work, ignore_errors=True)

def run1(mut, work):
    link_tree(work)
    mod = mut["file"][:-2]
    write(work, mod, mut["text"])
    r = coqc(work, mod, 120)
    if r.returncode: return dict(mut, status="ill-typed")
    dirty, cut = {mod}, []
    for f in FILES:
        if f == mod or f in SKIP or not any(x in dirty for x in DEPS.get(f, [])): continue
        dirty.add(f)
        while True:
            r = coqc(work, f)
            if r.returncode == 0: break
            m = re.search(r'File "\./([^"]+)", line (\d+)', r.stderr)
            if not m or len(cut) > 60: return dict(mut, status="error", err=r.stderr[-300:])
            lines = open(os.path.join(work, "theories", f + ".v")).read().split("\n")
            i = int(m.group(2)) - 1
            while i >= 0 and not START.match(lines[i]): i -= 1
            if i < 0: return dict(mut, status="killed", by=f + ":non-proof", err=r.stderr[-300:])
            kind, name = START.match(lines[i]).groups()
            hit = reaches(f + "." + name)
            if kind != "Example" and hit and not f.startswith("Toy"):
                return dict(mut, status="killed", by=f + "." + name, hit=hit[:6], cut=cut)
            if name in cut: return dict(mut, status="error", err="stuck " + name)
            text = "\n".join(lines[i:])
            mm = re.search(r"\bProof\b[^.]*\.(.*?)\b(Qed|Defined)\.", text, re.S)
            if not mm: return dict(mut, status="error", err="no proof " + name)
            write(work, f, "\n".join(lines[:i] + [text[:mm.start()] + "Proof. Admitted." + text[mm.end():]]))
            cut.append(name)
    return dict(mut, status="SURVIVED", cut=cut)

def main():
    fo = open(OUT, "a")
    n = 0
    for model in MODELS:
        t, defs = mutants(model)
        todo = []
        for name, b0, cand, tries in defs:
            # half of the budget for operators, the rest for well-typed variable swaps (many are ill-typed: try more)
            for a, b, nw, op in cand[:MAXPER]:
                todo.append((name, b0 + a, b0 + b, nw, op))
            for a, b, nw, op in tries[:int(os.environ.get("SWAPS", "12"))]:
                todo.append((name, b0 + a, b0 + b, nw, op))
        muts = []
        for name, a, b, nw, op in todo:
            n += 1
            muts.append(dict(n=n, file=model, definition=name, line=line_of(t, a), op=op, old=t[a:b], new=nw,
                             context=t[t.rfind("\n", 0, a) + 1: t.find("\n", b)].strip(), text=t[:a] + nw + t[b:]))
        print(model, len(muts), flush=True)
        with ThreadPoolExecutor(JOBS) as ex:
            for r in ex.map(run, muts):
                r.pop("text", None)
                if r["status"] != "ill-typed":
                    fo.write(json.dumps(r) + "\n"); fo.flush()
                if r["status"] not in ("killed", "ill-typed"):
                    print(r["status"], r["file"], r["line"], r["definition"], "|", r["context"], "|", r["old"], "=>", r["new"], r.get("err", ""), flush=True)
main()
