#!/usr/bin/env python3
"""Mutation test: apply one edit to a model file in a scratch copy of rocq/ and list
the theorems of the Prop_*.v files that no longer hold together.

usage: mutate.py SCRATCH FILE OLD NEW      (OLD must occur exactly once in FILE)

Every proof that breaks is replaced by an axiom named after it, so that the rest of
the development still compiles; a property theorem has failed when Print Assumptions
lists such an axiom for it, or when its own proof (a computation) breaks. Needs an
up-to-date build in rocq/, and /tmp/using.json (made by mutate.py --using) for the
section variables each proof uses."""
import glob, json, os, re, shutil, subprocess, sys
ROOT = os.path.dirname(os.path.dirname(os.path.abspath(__file__)))
USING = "/tmp/using.json"
LIMIT = 400

def coqc(d, f, extra=()):
    try:
        p = subprocess.run(["coqc", "-time", *extra, "-Q", ".", "Verif", f], cwd=d, capture_output=True, text=True, timeout=LIMIT)
        return p.returncode, p.stdout, p.stderr
    except subprocess.TimeoutExpired as e:
        out = (e.stdout or b"")
        return 124, out.decode() if isinstance(out, bytes) else out, "TIMEOUT"

def order(d):
    files = [os.path.basename(f)[:-2] for f in glob.glob(d + "/*.v")]
    deps = {}
    for f in files:
        s = open(f"{d}/{f}.v").read()
        deps[f] = [x for m in re.findall(r"From Verif Require Import ([^.]*)\.", s) for x in m.split()]
    done, out = set(), []
    def go(f):
        if f in done: return
        done.add(f)
        for x in deps[f]: go(x)
        out.append(f)
    for f in sorted(files): go(f)
    return out, deps

HEAD = re.compile(r"^(?:Local |Global )?(Lemma|Theorem|Example|Corollary|Fact|Remark|Definition|Fixpoint|Inductive|Record|Instance|Notation|Ltac)\s+([\w']+)", re.M)

def enclosing(s, pos):
    last = None
    for m in HEAD.finditer(s):
        if m.start() > pos: break
        last = m
    return last

def make_using():
    d = ROOT + "/rocq/theories"
    out = {}
    for f in order(d)[0]:
        s = open(f"{d}/{f}.v").read()
        if not re.search(r"^Section ", s, re.M): continue
        tmp = "/tmp/using_d"; shutil.rmtree(tmp, ignore_errors=True); shutil.copytree(d, tmp)
        p = subprocess.run(["coqc", "-set", "Suggest Proof Using=yes", "-Q", ".", "Verif", f + ".v"], cwd=tmp, capture_output=True, text=True)
        for m in re.finditer(r"The proof of ([\w']+)\s+should start with one of the following\s+commands:\s+Proof( using[^.]*)?\.", p.stdout + p.stderr):
            out[f + "." + m.group(1)] = (m.group(2) or "").strip()
    json.dump(out, open(USING, "w"), indent=0)
    print(len(out))

def run(scratch, fname, old, new):
    using = json.load(open(USING)) if os.path.exists(USING) else {}
    src = ROOT + "/rocq/theories"
    d = scratch
    shutil.rmtree(d, ignore_errors=True); shutil.copytree(src, d)
    path = f"{d}/{fname}.v"
    s = open(path).read()
    assert s.count(old) == 1, ("OLD occurs", s.count(old))
    open(path, "w").write(s.replace(old, new))
    files, deps = order(d)
    dirty, broken, dead, failed, log = {fname}, [], set(), [], []
    for f in files:
        if f not in dirty and not any(x in dirty for x in deps[f]): continue
        dirty.add(f)
        if any(x in dead for x in deps[f]):
            dead.add(f); continue
        for tries in range(80):
            rc, out, err = coqc(d, f + ".v")
            if rc == 0: break
            s = open(f"{d}/{f}.v").read()
            if rc == 124:
                m = re.findall(r"^Chars (\d+) - (\d+)", out, re.M)
                pos = len(s.encode()[:int(m[-1][1])].decode(errors="ignore")) + 1 if m else 0
            else:
                m = re.search(r'line (\d+), characters', err)
                if not m: dead.add(f); log.append((f, err[:300])); break
                pos = sum(len(x) + 1 for x in s.split("\n")[:int(m.group(1)) - 1])
                pos = len(s[:pos]) + 1
            h = enclosing(s, pos)
            if h is None or h.group(1) in ("Definition", "Fixpoint", "Inductive", "Record", "Notation", "Ltac", "Instance") or f.startswith("M_"):
                dead.add(f); log.append((f, h and h.group(2), err[:300])); break
            name = h.group(2)
            pf = re.compile(r"\bProof\b[^.]*\.").search(s, h.end())
            qed = re.compile(r"\b(Qed|Defined)\.").search(s, h.end())
            if pf is None or qed is None or pos < pf.start() or name in [b for (x, b, _) in broken if x == f]:
                dead.add(f); log.append((f, name, "statement: " + err[:300])); break
            u = using.get(f + "." + name, "")
            broken.append((f, name, "timeout" if rc == 124 else " ".join(err.split())[:160]))
            s = s[:h.start()] + f"Axiom broken_{name} : forall P : Prop, P.\n" + s[h.start():pf.start()] + f"Proof {u}. exact (broken_{name} _). Qed." + s[qed.end():]
            open(f"{d}/{f}.v", "w").write(s)
        else:
            dead.add(f); log.append((f, "too many"))
        if f.startswith("Prop_") and f not in dead:
            names = re.findall(r"^Print Assumptions ([\w']+)\.", open(f"{d}/{f}.v").read(), re.M)
            blocks = re.split(r"(?=Closed under the global context|Axioms:)", re.sub(r"^Chars .*\n", "", out, flags=re.M))[1:]
            assert len(blocks) == len(names), (f, len(blocks), len(names))
            for n, b in zip(names, blocks):
                if "broken_" in b: failed.append(n)
            for (x, b, _) in broken:
                if x == f and b not in failed: failed.append(b)
    for f in dead:
        if f.startswith("Prop_"):
            failed += re.findall(r"^Print Assumptions ([\w']+)\.", open(f"{src}/{f}.v").read(), re.M)
    res = {"failed": sorted(set(failed)), "broken": broken, "dead": sorted(dead), "log": log}
    return res

if __name__ == "__main__":
    if sys.argv[1] == "--using": make_using()
    else: print(json.dumps(run(*sys.argv[1:5]), indent=1))
