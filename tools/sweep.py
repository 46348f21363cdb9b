#!/usr/bin/env python3
"""Sweep of small edits over every definition of the model.

For each definition of the model files one or more edits are drawn (a number, a
comparison, a sign, a text, a dropped statement ...), applied in a copy of the
built tree, and the dependent files are compiled until the first one fails.  An
edit after which everything still compiles is a survivor and is looked at by hand.
The theorems resting on the failed lemma are found from the .glob files.  One JSON
line per edit goes to the file OUT.

usage: SRC=<built copy of rocq> WORK=<scratch> OUT=<file> sweep.py <per definition> <seed> <file.v> ...
"""
import json, os, random, re, shutil, subprocess, sys, time
SRC, WORK, OUT = os.environ["SRC"], os.environ["WORK"], os.environ["OUT"]
K, SEED, FILES = int(sys.argv[1]), sys.argv[2], sys.argv[3:]
HEAD = re.compile(r"^(?:Definition|Fixpoint|Inductive|Record) +([\w']+)", re.M)

def mask(t):
    """blank out comments (nested)"""
    out, d, i = [], 0, 0
    while i < len(t):
        if t.startswith("(*", i): d += 1; out.append("  "); i += 2; continue
        if t.startswith("*)", i) and d: d -= 1; out.append("  "); i += 2; continue
        out.append(t[i] if d == 0 or t[i] == "\n" else " "); i += 1
    return "".join(out)

RULES = [
 (r"(?<![\w.'])(\d+)(?![\w'])", lambda m: [str(int(m.group(1)) + 1)]),
 (r"<=\?", lambda m: ["<?"]), (r"(?<!<)(?<!=)<\?", lambda m: ["<=?"]), (r"(?<![<>])=\?", lambda m: ["<=?"]), (r">\?", lambda m: [">=?"]),
 (r"\btrue\b", lambda m: ["false"]), (r"\bfalse\b", lambda m: ["true"]),
 (r"&&", lambda m: ["||"]), (r"(?<=\s)\|\|(?=\s)", lambda m: ["&&"]),
 (r"\bnegb\b", lambda m: ["id"]),
 (r"\bx([0-9a-f])([0-9a-f])\b", lambda m: ["x" + m.group(1) + ("1" if m.group(2) == "0" else "0")]),
 (r"(?<=\s)\+(?=\s)", lambda m: ["-"]), (r"(?<=\s)-(?=\s)", lambda m: ["+"]), (r"(?<=\s)\*(?=\s)", lambda m: ["+"]),
 (r'"([^"\n]{2,})"', lambda m: ['"' + m.group(1)[:-1] + '"', '"' + m.group(1)[1:] + '"']),
 (r"\bfirstn\b", lambda m: ["skipn"]), (r"\bskipn\b", lambda m: ["firstn"]),
 (r"^ +[^\n]*;;;\n", lambda m: [""]),
 (r"\bErr [A-Za-z]\w*\b", lambda m: ["Panic"]),
 (r"\bland\b", lambda m: ["lor"]), (r"\bshiftr\b", lambda m: ["shiftl"]), (r"\bshiftl\b", lambda m: ["shiftr"]),
 (r"\brev\b", lambda m: ["id"]),
]

def candidates(f):
    t = open(SRC + "/theories/" + f).read()
    k = mask(t)
    heads = list(HEAD.finditer(k))
    res = []
    for i, h in enumerate(heads):
        end = heads[i + 1].start() if i + 1 < len(heads) else len(k)
        start = h.end()
        c = []
        for pat, f_ in RULES:
            for m in re.finditer(pat, k[start:end], re.M):
                for new in f_(m):
                    a, b = start + m.start(), start + m.end()
                    if pat.startswith('"') is False and k[:a].count('"') % 2 and not pat.startswith('"'):
                        continue
                    c.append((a, b, new))
        res.append((h.group(1), c))
    return t, res

def project(d): return [l.strip() for l in open(d + "/_CoqProject") if l.strip().endswith(".v")]
def deps(d, files):
    out = subprocess.run(["coqdep", "-f", "_CoqProject"], cwd=d, capture_output=True, text=True).stdout
    dep = {f: set() for f in files}
    for l in out.splitlines():
        m = re.match(r"(\S+)\.vo .*?: (.*)", l)
        if m and m.group(1) + ".v" in dep:
            dep[m.group(1) + ".v"] = {x[:-1] for x in m.group(2).split() if x.endswith(".vo") and x[:-1] in dep}
    return dep

# ---- who rests on whom, from the .glob files ----
def glob_graph(d, files):
    users = {}
    for f in files:
        mod = f[9:-2]
        g = d + "/theories/" + mod + ".glob"
        if not os.path.exists(g): continue
        cur = None
        for l in open(g, errors="replace"):
            m = re.match(r"(?:def|prf|thm|ind|rec|ex|inst|coe) (\d+):(\d+) (\S+) (\S+)", l)
            if m: cur = mod + "." + m.group(4); continue
            m = re.match(r"R(\d+):(\d+) Verif\.(\w+) (\S+) (\S+) (\w+)", l)
            if m and cur: users.setdefault(m.group(3) + "." + m.group(5), set()).add(cur)
    return users

def theorems(users, start):
    seen, todo = {start}, [start]
    while todo:
        for u in users.get(todo.pop(), ()):
            if u not in seen: seen.add(u); todo.append(u)
    return sorted(x.split(".")[1] for x in seen if re.match(r"Props\w+\.C\d\d_", x) and "instance" not in x)

def coqc(d, f, limit=1200):
    try:
        return subprocess.run(["timeout", str(limit), "coqc", "-q", "-set", "Default Timeout=150", "-Q", "theories", "Verif", f],
                          cwd=d, capture_output=True, text=True)
    except UnicodeDecodeError:
        return None

def main():
    files = project(SRC)
    dep = deps(SRC, files)
    order = []
    while len(order) < len(files):
        order += [g for g in files if g not in order and all(x in order for x in dep[g])]
    users = glob_graph(SRC, files)
    done = {json.loads(l)["name"] for l in open(OUT)} if os.path.exists(OUT) else set()
    if os.path.exists(WORK): shutil.rmtree(WORK)
    shutil.copytree(SRC, WORK)
    for f in FILES:
        t, defs = candidates(f)
        for name, c in defs:
            rnd = random.Random(SEED + f + name)
            rnd.shuffle(c)
            got = 0
            for a, b, new in c:
                if got >= K: break
                id_ = "%s:%s:%d:%s" % (f, name, a, new)
                if id_ in done: got += 1; continue
                p = "theories/" + f
                open(WORK + "/" + p, "w").write(t[:a] + new + t[b:])
                t0 = time.time()
                r = coqc(WORK, p)
                dirty, verdict = {p}, None
                if r is None or r.returncode:
                    verdict = {"invalid": True}
                else:
                    got += 1
                    for g in order:
                        if g == p or not (dep[g] & dirty): continue
                        dirty.add(g)
                        r = coqc(WORK, g)
                        if r is None or r.returncode:
                            x = open(WORK + "/" + g).read()
                            m = re.search(r"line (\d+), characters (\d+)", r.stderr if r else "")
                            lem = "?"
                            if m:
                                pos = sum(len(y) + 1 for y in x.split("\n")[:int(m.group(1)) - 1]) + int(m.group(2))
                                last = None
                                for q in re.finditer(r"^ *(?:Local |Global )?(?:Lemma|Theorem|Example|Corollary|Fact|Remark|Definition|Instance) +([\w']+)", x[:pos + 1], re.M): last = q
                                if last: lem = last.group(1)
                            verdict = {"lemma": g[9:-2] + "." + lem, "theorems": theorems(users, g[9:-2] + "." + lem)}
                            break
                    else:
                        verdict = {"survived": True}
                line = t[t.rfind("\n", 0, a) + 1:(t.find("\n", b) if t.find("\n", b) > 0 else len(t))]
                nl = t[t.rfind("\n", 0, a) + 1:a] + new + t[b:(t.find("\n", b) if t.find("\n", b) > 0 else len(t))]
                with open(OUT, "a") as fh:
                    fh.write(json.dumps(dict(name=id_, file=f, definition=name, old=line, new=nl, time=round(time.time() - t0), **verdict)) + "\n")
                for g in dirty:
                    for ext in (".v", ".vo", ".glob", ".vos", ".vok"):
                        s = SRC + "/" + g[:-2] + ext
                        if os.path.exists(s): shutil.copy2(s, WORK + "/" + g[:-2] + ext)
main()
