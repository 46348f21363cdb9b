#!/usr/bin/env python3
"""Test the theorems against wrong programs.

For each mutation (file, definition, old text, new text, claim) the sources are
copied outside /verif, the edit is applied to the model, and every dependent
file is compiled.  A proof that no longer goes through is replaced by Admitted
in the copy, so that the property theorems resting on it can be found with
Print Assumptions.  One JSON line per mutation is appended to seeded/LOG.jsonl.

usage: mutate.py [-j jobs] [name ...]      (no name: all not yet in the log)
"""
import json, os, re, shutil, subprocess, sys, threading, queue
ROOT = "/verif"
sys.path.insert(0, ROOT + "/tools")
from mutations import MUTATIONS
LOG = ROOT + "/seeded/LOG.jsonl"
THEO = re.compile(r"^ *(?:#\[[^\]]*\] *)?(?:Local |Global )?(Lemma|Theorem|Example|Corollary|Fact|Remark|Instance|Fixpoint|Definition) +([\w']+)", re.M)

def project(d):
    return [l.strip() for l in open(d + "/_CoqProject") if l.strip().endswith(".v")]

def deps(d, files):
    out = subprocess.run(["coqdep", "-f", "_CoqProject"], cwd=d, capture_output=True, text=True).stdout
    dep = {f: set() for f in files}
    for l in out.splitlines():
        m = re.match(r"(\S+)\.vo .*?: (.*)", l)
        if m and m.group(1) + ".v" in dep:
            dep[m.group(1) + ".v"] = {x[:-1] for x in m.group(2).split() if x.endswith(".vo") and x[:-1] in dep}
    return dep

def coqc(d, f, limit=900):
    return subprocess.run(["timeout", str(limit), "coqc", "-q", "-set", "Default Timeout=120", "-Q", "theories", "Verif", f],
                          cwd=d, capture_output=True, text=True)

def enclosing(text, pos):
    last = None
    for m in THEO.finditer(text, 0, pos + 1):
        last = m
    return last

def admit(text, name):
    m = re.search(r"^( *)(?:Local |Global )?(?:Lemma|Theorem|Example|Corollary|Fact|Remark) +" + re.escape(name) + r"\b", text, re.M)
    p = text.index("Proof", m.start())
    q = re.compile(r"\b(Qed|Defined)\.").search(text, p)
    using = "Proof using All. " if m.group(1) else ""   # in a section
    return text[:p] + using + "Admitted." + text[q.end():]

def scan(d, f):
    """names of the lemmas whose proofs fail, found in one interactive pass"""
    text = open(d + "/" + f).read()
    t = re.sub(r"\b(Qed|Defined)\.", r"\1. Admitted.", text)
    r = subprocess.run(["timeout", "1500", "coqtop", "-q", "-set", "Default Timeout=120", "-Q", "theories", "Verif"],
                       cwd=d, input=t, capture_output=True, text=True)
    return [n for n in re.findall(r"([\w']+) is declared", r.stdout + r.stderr)]

def run(mut, work):
    d = work
    if os.path.exists(d):
        shutil.rmtree(d)
    shutil.copytree(os.environ.get("SRC", ROOT + "/rocq"), d)
    files = project(d)
    dep = deps(d, files)
    order = []
    while len(order) < len(files):   # dependencies first
        order += [g for g in files if g not in order and all(x in order for x in dep[g])]
    files = order
    f = "theories/" + mut["file"]
    text = open(d + "/" + f).read()
    if text.count(mut["old"]) != mut.get("count", 1):
        return {"error": "old text occurs %d times" % text.count(mut["old"])}
    open(d + "/" + f, "w").write(text.replace(mut["old"], mut["new"]))
    dirty, failed, thms, broken = {f}, [], [], []
    for g in files:
        if g not in dirty and not (dep[g] & dirty):
            continue
        dirty.add(g)
        if any(b in dep[g] for b in broken):
            broken.append(g); continue
        r = coqc(d, g)
        n = 0
        scanned = False
        while r.returncode and n < 40:
            n += 1
            names = []
            if not scanned:
                scanned = True
                names = scan(d, g)
            t = open(d + "/" + g).read()
            if not names:
                m = re.search(r'line (\d+), characters (\d+)', r.stderr)
                if not m:
                    break
                pos = sum(len(x) + 1 for x in t.split("\n")[:int(m.group(1)) - 1]) + int(m.group(2))
                e = enclosing(t, pos)
                if not e or e.group(1) in ("Fixpoint", "Definition", "Instance") :
                    break
                names = [e.group(2)]
            ok = True
            for x in names:
                try:
                    t = admit(t, x)
                except Exception:
                    ok = False; continue
                failed.append(g[9:-2] + "." + x)
            if not ok and not [x for x in names if g[9:-2] + "." + x in failed]:
                break
            open(d + "/" + g, "w").write(t)
            r = coqc(d, g)
        if r.returncode:
            broken.append(g)
            failed.append(g[9:-2] + " (does not compile: " + r.stderr.strip().splitlines()[-1][:100] + ")" if r.stderr.strip() else g[9:-2] + " (timeout)")
            continue
        if os.path.basename(g).startswith("Props"):
            # which theorems rest on an admitted lemma
            t = open(d + "/" + g).read()
            names = re.findall(r"^(?:Theorem) +([\w']+)", t, re.M)
            own = set(x.split(".", 1)[1] for x in failed)
            q = "From Verif Require Import %s.\n" % g[9:-2]
            for x in names:
                q += "Print Assumptions %s.\nCheck \"END %s\"%%string.\n" % (x, x)
            open(d + "/q.v", "w").write("From Coq Require Import String.\n" + q)
            r = subprocess.run(["timeout", "900", "coqc", "-q", "-Q", "theories", "Verif", "q.v"], cwd=d, capture_output=True, text=True)
            for x, part in zip(names, re.split(r'"END \S+"%?\w*\s*:\s*\S+', r.stdout)):
                if any(re.search(r"(^|\s|\.)%s\s*:" % re.escape(o), part) for o in own):
                    thms.append(x)
    shutil.rmtree(d, ignore_errors=True)
    return {"failed_lemmas": failed, "theorems_failed": thms, "not_compiled": [b[9:-2] for b in broken]}

def main():
    args = sys.argv[1:]
    jobs = 1
    if args[:1] == ["-j"]:
        jobs = int(args[1]); args = args[2:]
    done = set()
    if os.path.exists(LOG):
        done = {json.loads(l)["name"] for l in open(LOG) if l.strip()}
    known = {m["name"]: m for m in MUTATIONS}
    todo = [known[a] for a in args] or [m for m in MUTATIONS if m["name"] not in done]
    q = queue.Queue()
    for m in todo:
        q.put(m)
    lock = threading.Lock()
    def worker(k):
        while True:
            try:
                m = q.get_nowait()
            except queue.Empty:
                return
            try:
                r = run(m, os.environ.get("WORK", "/tmp/mut") + "%d" % k)
            except Exception as e:
                r = {"error": repr(e)}
            with lock:
                print(m["name"], json.dumps(r)[:600], flush=True)
                if "error" not in r:
                    entry = {"name": m["name"], "file": "rocq/theories/" + m["file"], "definition": m["definition"],
                             "edit": {"old": m["old"], "new": m["new"]}, "claim_broken": m["claim"],
                             "theorems_failed": r["theorems_failed"], "lemmas_failed": r["failed_lemmas"][:40],
                             "not_compiled": r["not_compiled"],
                             "theorems_tightened": m.get("tightened", []), "note": m.get("note", "")}
                    with open(LOG, "a") as fh:
                        fh.write(json.dumps(entry) + "\n")
    ts = [threading.Thread(target=worker, args=(k,)) for k in range(jobs)]
    for t in ts: t.start()
    for t in ts: t.join()
main()
