"""Mutate one statement of every transcribed function (sign, factor or dropped term) in a scratch copy, and record
the first theorem that stops proving.

usage: seed_auto.py SEED [first [last]]   (needs a built copy of /verif/rocq in /tmp/mut/base)"""
import sys, os, re, json, subprocess, shutil, random, glob
sys.path.insert(0, os.path.dirname(__file__))
from seed import BASE, LOG, enclosing
WORK = "/tmp/mut/work_auto"

def functions():
    out = []
    for f in sorted(glob.glob(BASE + "/theories/Code_*.v")):
        s = open(f).read()
        for m in re.finditer(r"^Definition (\w+) : fn := mkFn\n(.*?)\.\n(?=\n|\Z)", s, re.M | re.S):
            out.append((os.path.basename(f)[:-2], m.group(1), m.start(), m.end()))
    return out

def mutate(text, rnd):
    lines = text.split("\n")
    cand = [i for i, l in enumerate(lines) if re.match(r"\s+\[?\(\*L\d+\*\) S(Aug|Assign)", l) and ("EEins" in l)]
    if not cand:
        return None
    i = rnd.choice(cand)
    l = lines[i]
    ops = []
    m = re.search(r"EScale \((-?\d+) # (\d+)\)", l)
    if m:
        ops += ["sign", "factor"]
    if "SAug" in l:
        ops += ["aug"]
        if not l.rstrip().endswith("]") or l.rstrip().endswith("])") or True:
            ops += ["zero"]
    op = rnd.choice(ops) if ops else None
    ln = re.search(r"\(\*L(\d+)\*\)", l).group(1)
    if op == "sign":
        n = str(-int(m.group(1)))
        lines[i] = l[:m.start(1)] + n + l[m.end(1):]
        return "\n".join(lines), f"line {ln}: sign of the term reversed"
    if op == "factor":
        lines[i] = l[:m.start(1)] + str(2 * int(m.group(1))) + l[m.end(1):]
        return "\n".join(lines), f"line {ln}: term multiplied by 2"
    if op == "aug":
        lines[i] = l.replace("SAug true", "SAug @", 1).replace("SAug false", "SAug true", 1).replace("SAug @", "SAug false", 1)
        return "\n".join(lines), f"line {ln}: += and -= exchanged"
    if op == "zero":
        if m:
            lines[i] = l[:m.start(1)] + "0" + l[m.end(1):]
            return "\n".join(lines), f"line {ln}: term dropped"
        lines[i] = re.sub(r"\(EEins", "(EScale (0 # 1) (EEins", l, 1)
        return None
    return None

def run(fn, seed):
    f, name, a, b = fn
    rnd = random.Random(f"{seed}/{f}/{name}")
    s = open(f"{BASE}/theories/{f}.v").read()
    r = None
    for _ in range(20):
        r = mutate(s[a:b], rnd)
        if r:
            break
    if not r:
        print("no mutation", f, name, flush=True)
        return
    shutil.rmtree(WORK, ignore_errors=True)
    subprocess.run(["cp", "-a", BASE, WORK], check=True)
    open(f"{WORK}/theories/{f}.v", "w").write(s[:a] + r[0] + s[b:])
    p = subprocess.run(["make", "-j2"], cwd=WORK, capture_output=True, text=True)
    out = p.stdout + p.stderr
    failed = []
    for fm in re.finditer(r'File "\./theories/(\w+)\.v", line (\d+), characters[^\n]*\n(?:Error|In nested)', out):
        t = f"{fm.group(1)}.{enclosing(f'{WORK}/theories/{fm.group(1)}.v', int(fm.group(2)))}"
        if t not in failed:
            failed.append(t)
    rec = dict(definition=f"{f}.{name}", edit=r[1], claim="the claims about this routine (build stopped at the first failing file)", failed=failed, survived=p.returncode == 0, tightened=[])
    with open(LOG, "a") as fh:
        fh.write(json.dumps(rec) + "\n")
    print(json.dumps(rec), flush=True)

if __name__ == "__main__":
    fs = functions()
    a = int(sys.argv[2]) if len(sys.argv) > 2 else 0
    b = int(sys.argv[3]) if len(sys.argv) > 3 else len(fs)
    print(len(fs), "functions", flush=True)
    for fn in fs[a:b]:
        run(fn, sys.argv[1])
