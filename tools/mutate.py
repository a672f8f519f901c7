#!/usr/bin/env python3
"""Mutation testing in a scratch copy (never in /verif).

usage: [MUT_BASE=snapshot of /verif/rocq] mutate.py mutations.json [scratch-dir] [id,id,...]
Each mutation: {"id","file","old","new","what","breaks"}. The scratch copy is rebuilt; a proof that fails is recorded
and replaced by Admitted in the scratch copy only, so that all failing proofs are found. One JSON line per
mutation is printed with the property theorems that fail (directly or through a failed lemma). With MUT_FAST=1 the
build stops at the first failing proofs on which a property theorem rests.
"""
import json, os, re, subprocess, sys, shutil
BASE = os.environ.get("MUT_BASE", "/verif/rocq")
muts = json.load(open(sys.argv[1]))
W = sys.argv[2] if len(sys.argv) > 2 else "/tmp/mut"
JOBS = os.environ.get("MUT_JOBS", "2")
FAST = os.environ.get("MUT_FAST") == "1"
only = sys.argv[3].split(",") if len(sys.argv) > 3 else None
DECL = re.compile(r"^\s*(?:Local |Global )?(Lemma|Theorem|Example|Corollary|Fact|Remark)\s+([A-Za-z0-9_']+)", re.M)
ANY = re.compile(r"^\s*(?:Local |Global |#\[.*?\] )?(Lemma|Theorem|Example|Corollary|Fact|Definition|Fixpoint|Inductive|Record|Instance|Ltac|Notation|Section|End|Check)\b\s*([A-Za-z0-9_']*)", re.M)

def sh(cmd, **k): return subprocess.run(cmd, shell=True, capture_output=True, text=True, **k)

# dependency graph from the .glob files of the base build
def graph():
    deps = {}
    for g in os.listdir(BASE + "/theories"):
        if not g.endswith(".glob"): continue
        mod = g[:-5]
        decls, refs = [], []
        for line in open(BASE + "/theories/" + g, errors="replace"):
            m = re.match(r"^(prf|def|thm|ind|rec|constr|proj|syndef|scheme|inst) (\d+):\d+ (\S+) (\S+)$", line)
            if m: decls.append((int(m[2]), m[4])); continue
            m = re.match(r"^R(\d+):\d+ Verif\.(\S+) (\S+) (\S+) (def|thm|prf|ind|constr|proj|rec|scheme|syndef|inst)$", line)
            if m: refs.append((int(m[1]), m[2] + "." + m[4]))
        decls.sort(); refs.sort()
        i = -1
        for pos, r in refs:
            while i + 1 < len(decls) and decls[i + 1][0] <= pos: i += 1
            if i >= 0: deps.setdefault(mod + "." + decls[i][1], set()).add(r)
    return deps

def props():
    out = []
    for f in sorted(os.listdir(BASE + "/theories")):
        if f.startswith("P_") and f.endswith(".v"):
            for m in re.finditer(r"^(Theorem|Example) (C\d+_\S+)", open(BASE + "/theories/" + f).read(), re.M):
                out.append((f[:-2], m[2]))
    return out

DEPS = graph(); PROPS = props()
def reach(x, failed, memo):
    if x in failed: return True
    if x in memo: return memo[x]
    memo[x] = False
    memo[x] = any(reach(y, failed, memo) for y in DEPS.get(x, ()))
    return memo[x]

# which property theorems rest on an admitted proof: the kernel's own list
def assumed(fs):
    mods = sorted({mod for mod, _ in PROPS if os.path.exists(f"{W}/theories/{mod}.vo")})
    def ask(groups):
        """for each group of theorems: does one of them rest on a failed proof"""
        with open(f"{W}/assumed.v", "w") as f:
            f.write(f"From Verif Require {' '.join(mods)}.\n")
            for i, g in enumerate(groups):
                f.write(f'Definition group{i} := ({", ".join("@" + x for x in g)}, tt).\nGoal True. idtac "@@ {i}". exact I. Qed.\nPrint Assumptions group{i}.\n')
        r = sh(f"cd {W} && timeout 1800 coqc -q -Q theories Verif assumed.v")
        out = {}
        for part in r.stdout.split("@@ ")[1:]:
            i, _, text = part.partition("\n")
            names = set(re.findall(r"^(\S+)\s*(?::|$)", text, re.M))
            short = {x.split(".")[-1] for x in names}
            g = groups[int(i)]
            out[int(i)] = any(x in fs for x in g) or any(f in names or f.split(".")[-1] in short for f in fs)
        return [out.get(i) for i in range(len(groups))]
    out = {}
    todo = [[mod + "." + n for m2, n in PROPS if m2 == mod] for mod in mods]
    while todo:
        nxt = []
        for g, a in zip(todo, ask(todo)):
            if a is None and len(g) == 1: continue
            if a is False or len(g) == 1: out.update({x: bool(a) for x in g})
            elif len(g) <= 6: nxt += [[x] for x in g]
            else: nxt += [g[:len(g) // 2], g[len(g) // 2:]]
        todo = nxt
    return out

def run(m):
    sh(f"rm -rf {W} && cp -a {BASE} {W}")
    p = f"{W}/theories/{m['file']}"
    s = open(p).read()
    edits = m.get("edits") or [[m["old"], m["new"]]]
    for o, n in edits:
        if s.count(o) < 1: return {"id": m["id"], "error": "pattern not found: " + o}
        s = s.replace(o, n) if m.get("all") else s.replace(o, n, 1)
    open(p, "w").write(s)
    sh(f"cd {W} && coq_makefile -f _CoqProject -o Makefile")
    failed, hard = [], []
    for it in range(120):
        r = sh(f"cd {W} && ulimit -v 6000000; make {'' if FAST else '-k '}-j{JOBS} COQC='timeout 240 coqc' 2>&1")
        errs = re.findall(r'File "\./theories/(\w+)\.v", line (\d+), characters[^\n]*\n((?:Error|Unable)[^\n]*(?:\n[^\n]*)?)', r.stdout)
        for mod in re.findall(r"theories/(\w+)\.vo\] (?:Killed|Error 124|Error 137)", r.stdout):
            # a proof that no longer terminates: find the last sentence that was accepted
            z = sh(f"cd {W} && ulimit -v 6000000; timeout 300 coqc -time -q -Q theories Verif theories/{mod}.v")
            ends = re.findall(r"^Chars \d+ - (\d+)", z.stdout, re.M)
            raw = open(f"{W}/theories/{mod}.v", "rb").read()
            errs.append((mod, str(raw[:int(ends[-1]) if ends else 0].decode(errors="replace").count("\n") + 1), "does not terminate"))
        if not errs:
            if r.returncode != 0: hard.append("build: " + r.stdout[-300:])
            break
        stop = True
        for mod, line, msg in errs:
            q = f"{W}/theories/{mod}.v"; t = open(q).read()
            off = sum(len(l) + 1 for l in t.split("\n")[:int(line) - 1])
            ms = [x for x in ANY.finditer(t) if x.start() <= off + len(t[off:].split("\n")[0])]
            last = ms[-1] if ms else None
            ok = last is not None and last[1] in ("Lemma", "Theorem", "Example", "Corollary", "Fact", "Instance")
            pr = t.find("Proof", last.start()) if ok else -1
            end = min([x for x in (t.find("Qed.", pr), t.find("Defined.", pr)) if x >= 0], default=-1) if pr >= 0 else -1
            if not ok or pr < 0 or end < 0 or off + 400 < pr - 4000 or t[pr:end].strip() == "Proof.":
                hard.append(f"{mod}:{line} {last[2] if last else '?'}: {' '.join(msg.split())[:160]}"); continue
            e2 = end + (4 if t[end:end+4] == "Qed." else 8)
            open(q, "w").write(t[:pr] + "Proof. Admitted." + t[e2:])
            failed.append(mod + "." + last[2]); stop = False
        if stop: break
        if FAST and any(reach(mod + "." + n, set(failed), memo) for memo in [{}] for mod, n in PROPS): break
    fs = set(failed)
    memo = {}
    broken_mods = {h.split(":")[0] for h in hard}
    direct = [x for x in failed]
    exact = assumed(fs) if fs and not FAST else {}
    pf = [n for mod, n in PROPS if mod in broken_mods or not (FAST or os.path.exists(f"{W}/theories/{mod}.vo"))
          or (exact[mod + "." + n] if mod + "." + n in exact else reach(mod + "." + n, fs, memo))]
    return {"id": m["id"], "file": m["file"], "definition": m.get("definition"), "edit": [list(e) for e in edits], "what": m["what"],
            "claim": m["breaks"], "proofs_failed": direct, "hard": hard, "theorems_failed": pf}

for m in muts:
    if only and m["id"] not in only: continue
    print(json.dumps(run(m)), flush=True)
