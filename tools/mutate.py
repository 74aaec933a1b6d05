#!/usr/bin/env python3
"""Mutation testing of the theorems.

  mutate.py prep WORK               build an annotated copy of rocq/theories in WORK
  mutate.py run WORK MUTANTS RESULTS [-j N] [--quick]

Each mutant line: {"id", "file", "definition", "old", "new", "nth"?, "claim"}.
The edit is applied to a scratch copy (never to /verif). The .glob files of the
unchanged tree say which items use the edited definition, directly or not; every
other proof is skipped (Proof using ... Admitted) and the files are rebuilt. A
proof that no longer goes through is skipped in turn, so the rest of the file is
still checked. A manifest theorem counts as failed when its own proof broke or
when it uses, directly or not, a lemma whose proof broke. With --quick the run
stops at the first broken proof that some manifest theorem rests on.
"""
import argparse, json, os, re, shutil, subprocess, sys, time
from bisect import bisect_right
from concurrent.futures import ThreadPoolExecutor

ROOT = "/verif"
KW = r"(Lemma|Theorem|Corollary|Fact|Example|Remark|Proposition|Instance|Definition|Fixpoint|Let)"
START = re.compile(rb"^[ \t]*(?:#\[[^\]]*\]\s*)?(?:Local |Global |Program )?" + KW.encode() + rb"\s+([A-Za-z_0-9']+)", re.M)

def files(work):
    return [l.strip()[len("theories/"):] for l in open(os.path.join(work, "prep", "_CoqProject")) if l.startswith("theories/")]

def deps(work):
    fs = files(work)
    out = subprocess.run(["coqdep", "-Q", ".", "Verif"] + fs, cwd=os.path.join(work, "prep", "theories"), capture_output=True, text=True).stdout
    d = {}
    for line in out.splitlines():
        if ":" not in line: continue
        lhs, rhs = line.split(":", 1)
        t = [x for x in lhs.split() if x.endswith(".vo")]
        if t: d[os.path.basename(t[0])[:-3] + ".v"] = {os.path.basename(x)[:-3] + ".v" for x in rhs.split() if x.endswith(".vo")}
    return d

def prep(work):
    p = os.path.join(work, "prep")
    shutil.rmtree(p, ignore_errors=True)
    os.makedirs(os.path.join(p, "theories"))
    shutil.copy(os.path.join(ROOT, "rocq", "_CoqProject"), p)
    for f in files(work):
        s = open(os.path.join(ROOT, "rocq", "theories", f)).read()
        open(os.path.join(p, "theories", f), "w").write("Set Suggest Proof Using.\n" + s)
    subprocess.run("coq_makefile -f _CoqProject -o Makefile && make -j4 > ../prep.txt 2>&1", shell=True, cwd=p, check=True)

def usings(work):
    """lemma -> 'using' clause, from the messages of Suggest Proof Using"""
    t = open(os.path.join(work, "prep.txt")).read()
    u = {}
    for m in re.finditer(r"The proof of ([A-Za-z_0-9']+)\s+should start with one of the following\s+commands:((?:\s*Proof using[^.]*\.)+)", t):
        u[m.group(1)] = re.search(r"Proof using[^.]*\.", m.group(2)).group(0)
    return u

def graph(work):
    """item -> set of items it refers to; items are (file, name)"""
    g = {}
    for f in files(work):
        lib = f[:-2]
        defs, refs = [], []
        for l in open(os.path.join(work, "prep", "theories", lib + ".glob")):
            m = re.match(r"R(\d+):\d+ Verif\.(\S+) (\S+) (\S+) (\S+)", l)
            if m:
                refs.append((int(m.group(1)), (m.group(2), m.group(4)))); continue
            m = re.match(r"(\w+) (\d+):\d+ (\S+) (\S+)$", l)
            if m and m.group(1) not in ("binder", "sec", "var"):
                defs.append((int(m.group(2)), m.group(4)))
        defs.sort()
        pos = [p for p, _ in defs]
        for p, n in defs: g.setdefault((lib, n), set())
        for p, r in refs:
            k = bisect_right(pos, p) - 1
            if k >= 0: g[(lib, defs[k][1])].add(r)
    return g

def reverse(g):
    r = {}
    for a, bs in g.items():
        for b in bs: r.setdefault(b, set()).add(a)
    return r

def reach(r, seeds):
    seen, todo = set(seeds), list(seeds)
    while todo:
        x = todo.pop()
        for y in r.get(x, ()):
            if y not in seen: seen.add(y); todo.append(y)
    return seen

def items(src):
    """(name, start, proof_start, proof_end) for every item that has a proof script"""
    out = []
    ms = list(START.finditer(src))
    for i, m in enumerate(ms):
        end = ms[i + 1].start() if i + 1 < len(ms) else len(src)
        p = re.compile(rb"\bProof\b[^.]*\.").search(src, m.end(), end)
        if not p: continue
        q = re.compile(rb"\b(Qed|Defined)\.").search(src, p.end(), end)
        if not q: continue
        out.append((m.group(2).decode(), m.start(), p.start(), q.end(), q.group(1).decode()))
    return out

def skip(src, names, use):
    out, last = [], 0
    for n, s, a, b, k in items(src):
        if n in names and k == "Qed":
            out += [src[last:a], (use.get(n) or "Proof.").encode(), b" Admitted."]; last = b
    return b"".join(out) + src[last:]

def run(mut, work, fs, d, g, rg, use, thms, quick=False):
    t0 = time.time()
    w = os.path.join(work, "scratch", mut["id"])
    shutil.rmtree(w, ignore_errors=True); os.makedirs(w)
    th = os.path.join(work, "prep", "theories")
    lib = mut["file"][:-2]
    rel = reach(rg, {(lib, n) for n in mut["definition"].split(",")})
    aff, ch = {mut["file"]}, True
    while ch:
        ch = False
        for f in d:
            if f not in aff and d[f] & aff: aff.add(f); ch = True
    # drop affected files in which nothing uses the definition and that nothing relevant needs
    relf = {l + ".v" for l, _ in rel} | {mut["file"]}
    need, ch = set(relf & aff), True
    while ch:
        ch = False
        for f in list(need):
            for x in d[f] & aff:
                if x not in need: need.add(x); ch = True
    order = [f for f in fs if f in need]
    for f in fs:
        if f in need:
            src = open(os.path.join(th, f), "rb").read()
            if f == mut["file"]:
                s = src.decode(); n = s.count(mut["old"])
                if n == 0 or (n != 1 and "nth" not in mut): return {"id": mut["id"], "error": "old text occurs %d times" % n}
                if "nth" in mut:
                    parts = s.split(mut["old"]); k = mut["nth"]
                    s = mut["old"].join(parts[:k + 1]) + mut["new"] + mut["old"].join(parts[k + 1:])
                else: s = s.replace(mut["old"], mut["new"])
                src = s.encode()
            src = skip(src, {n for n, *_ in items(src)} - {n for l, n in rel if l == f[:-2]}, use)
            open(os.path.join(w, f), "wb").write(src.replace(b"Set Suggest Proof Using.", b"Set Default Timeout 150.", 1))
        elif f not in aff:
            for ext in (".vo",): os.symlink(os.path.join(th, f[:-2] + ext), os.path.join(w, f[:-2] + ext))
    broken, dead, stop = [], [], False
    for f in order:
        if d[f] & set(dead): dead.append(f); continue
        while True:
            r = subprocess.run(["coqc", "-q", "-Q", ".", "Verif", "-noglob", f], cwd=w, capture_output=True, text=True)
            if r.returncode == 0: break
            m = list(re.finditer(r'File "\./%s", line (\d+), characters (\d+)-(\d+):\s*\n(?:Error|Timeout)' % re.escape(f), r.stderr + r.stdout))
            if not m: dead.append(f); broken.append(f + ": " + r.stderr[-300:]); break
            src = open(os.path.join(w, f), "rb").read()
            ls = src.split(b"\n"); ln = int(m[-1].group(1))
            byte = sum(len(x) + 1 for x in ls[:ln - 1]) + int(m[-1].group(2))
            hit = [(n, k) for n, s, a, b, k in items(src) if a <= byte < b]
            if not hit or hit[0][1] != "Qed":
                dead.append(f); broken.append(f + ": " + r.stderr[-300:]); break
            broken.append(f[:-2] + "." + hit[0][0])
            if quick and any(n in thms for l, n in reach(rg, {(f[:-2], hit[0][0])})): stop = True; break
            open(os.path.join(w, f), "wb").write(skip(src, {hit[0][0]}, use))
        if stop: break
    bad = reach(rg, {tuple(b.split(".")) for b in broken if re.match(r"^\w+\.[\w']+$", b)})
    failed = [n for (l, n) in bad if n in thms]
    maybe = [n for (l, n) in rel if n in thms and l + ".v" in dead]
    shutil.rmtree(w, ignore_errors=True)
    return {"id": mut["id"], "definition": mut["definition"], "file": mut["file"], "edit": mut["old"] + "  ==>  " + mut["new"],
            "claim": mut.get("claim", ""), "broken": broken, "dead_files": dead, "theorems_failed": sorted(set(failed)),
            "theorems_unchecked": sorted(set(maybe)), "theorems_using": sum(1 for l, n in rel if n in thms), "secs": round(time.time() - t0)}

def main():
    a = argparse.ArgumentParser(); a.add_argument("cmd"); a.add_argument("work"); a.add_argument("mutants", nargs="?"); a.add_argument("results", nargs="?")
    a.add_argument("-j", type=int, default=2); a.add_argument("--quick", action="store_true"); a = a.parse_args()
    if a.cmd == "prep": return prep(a.work)
    fs, d = files(a.work), deps(a.work)
    g = graph(a.work); rg = reverse(g); use = usings(a.work)
    thms = {t for c in json.load(open(os.path.join(ROOT, "MANIFEST.json")))["claims"] for t in c["theorems"]}
    ms = [json.loads(l) for l in open(a.mutants) if l.strip()]
    done = {json.loads(l)["id"] for l in open(a.results)} if os.path.exists(a.results) else set()
    def go(m):
        try: r = run(m, a.work, fs, d, g, rg, use, thms, a.quick)
        except Exception as e: r = {"id": m["id"], "error": repr(e)}
        with open(a.results, "a") as o: o.write(json.dumps(r) + "\n")
    with ThreadPoolExecutor(a.j) as ex: list(ex.map(go, [m for m in ms if m["id"] not in done]))

if __name__ == "__main__": main()
