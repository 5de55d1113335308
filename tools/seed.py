"""Apply deliberate bugs to the model in a scratch copy and record which theorems stop proving.

usage: seed.py MUTATIONS.py [first [last]]   (needs a built copy of /verif/rocq in /tmp/mut/base)
MUTATIONS.py defines M, a list of (file, definition, old, new, edit, claim, property).
Appends one JSON line per mutation to /verif/seeded/LOG.jsonl."""
import sys, os, re, json, subprocess, shutil
BASE, WORK = "/tmp/mut/base", "/tmp/mut/work"
LOG = "/verif/seeded/LOG.jsonl"

def enclosing(path, line):
    name = "?"
    for i, l in enumerate(open(path), 1):
        if i > line:
            break
        m = re.match(r"\s*(?:Theorem|Lemma|Example|Corollary|Definition|Fixpoint|Remark|Fact)\s+(\w+)", l)
        if m:
            name = m.group(1)
    return name

def theorems(path):
    return re.findall(r"^\s*Theorem\s+(\w+)", open(path).read(), re.M)

def run(m):
    f, d, old, new, edit, claim, prop = m
    shutil.rmtree(WORK, ignore_errors=True)
    subprocess.run(["cp", "-a", BASE, WORK], check=True)
    p = f"{WORK}/theories/{f}.v"
    s = open(p).read()
    n = s.count(old)
    if n == 0:
        raise SystemExit(f"pattern not found in {f}: {old}")
    if n > 1:
        i = s.index("Definition " + d) if ("Definition " + d) in s else s.index("Fixpoint " + d)
        j = s.index(old, i)
        s = s[:j] + new + s[j + len(old):]
    else:
        s = s.replace(old, new)
    open(p, "w").write(s)
    r = subprocess.run(["make", "-k", "-j2"], cwd=WORK, capture_output=True, text=True)
    out = r.stdout + r.stderr
    failed = []
    for fm in re.finditer(r'File "\./theories/(\w+)\.v", line (\d+), characters[^\n]*\n(?:Error|In nested)', out):
        q = f"{WORK}/theories/{fm.group(1)}.v"
        nm = enclosing(q, int(fm.group(2)))
        t = f"{fm.group(1)}.{nm}"
        if t not in failed:
            failed.append(t)
    built = r.returncode == 0
    rec = dict(property=prop, definition=f"{f}.{d}", edit=edit, claim=claim, failed=failed, survived=built, tightened=[])
    with open(LOG, "a") as fh:
        fh.write(json.dumps(rec) + "\n")
    print(json.dumps(rec), flush=True)

if __name__ == "__main__":
    ns = {}
    exec(open(sys.argv[1]).read(), ns)
    a = int(sys.argv[2]) if len(sys.argv) > 2 else 0
    b = int(sys.argv[3]) if len(sys.argv) > 3 else len(ns["M"])
    for m in ns["M"][a:b]:
        run(m)
