"""Try the wrong programs of mutants.py against the proofs, in scratch copies.

usage: mutate.py BASE OUT.jsonl [WORKERS] [indices...]

BASE is a built copy of /verif/rocq outside /verif.  For every mutant a copy is made, the
edit applied and the files compiled in order.  Proofs that no longer go through are found
with coqtop and replaced, in the scratch copy only, by an axiom each, so that the later files
can be compiled and Print Assumptions tells which property theorems rest on a proof that
broke.  The file that states the property meant to notice comes first; the run of a mutant
ends when a theorem of that property broke, or later when any did.  Examples are not run.
OUT gets one line per mutant."""
import json, os, re, shutil, subprocess, sys
from concurrent.futures import ThreadPoolExecutor
import threading
HERE = os.path.dirname(os.path.abspath(__file__))
sys.path.insert(0, HERE)
import mutants

BASE, OUT = sys.argv[1], sys.argv[2]
WORKERS = int(sys.argv[3]) if len(sys.argv) > 3 else 2
IDX = [int(x) for x in sys.argv[4:]]
lock = threading.Lock()
HEAD = r"(?:#\[[^\]]*\]\s*)?(?:Local\s+)?(?:Lemma|Theorem|Example|Corollary|Fact|Remark|Instance|Definition|Fixpoint)\s+"
BLOCK = re.compile(r"^[ \t]*" + HEAD + r"(\w+)\b(?:(?!^[ \t]*(?:" + HEAD + r"|Proof\b|Let\s|Section\s|End\s))[\s\S])*?(?<=[\s.])(Proof\.(?:(?!\bAdmitted\.)[\s\S])*?\b(?:Qed|Defined)\.)", re.M)

def files(d):
    return [l.strip() for l in open(d + "/_CoqProject") if l.strip().startswith("theories/")]

def deps(d):
    out = subprocess.run(["coqdep", "-Q", "theories", "Verif"] + files(d), cwd=d, capture_output=True, text=True).stdout
    res = {}
    for line in out.replace("\\\n", " ").splitlines():
        if ":" in line:
            l, r = line.split(":", 1)
            t = [x for x in l.split() if x.endswith(".vo")]
            if t:
                res[t[0][:-1]] = [x[:-1] for x in r.split() if x.endswith(".vo") and x.startswith("theories/")]
    return res

def run(cmd, d, t, inp=None):
    try:
        p = subprocess.run(["bash", "-c", "ulimit -v 6000000; exec " + cmd], cwd=d, input=inp, capture_output=True, text=True, timeout=t)
        return p.returncode, p.stdout, p.stderr
    except subprocess.TimeoutExpired as e:
        return 124, (e.stdout or b"").decode() if isinstance(e.stdout, bytes) else (e.stdout or ""), "timeout"

def failing(d, f):
    """names of the proofs in f that fail"""
    s = open(d + "/" + f).read()
    s = re.sub(r"\b(Qed|Defined)\.", r"\n\1.\nAdmitted.\n", s)
    mod = os.path.basename(f)[:-2]
    code, out, err = run("coqtop -q -Q theories Verif -top Verif." + mod, d, 1500, "Set Default Timeout 60.\n" + s)
    names = {m.group(1) for m in BLOCK.finditer(open(d + "/" + f).read())}
    return [n for n in dict.fromkeys(re.findall(r"(\w+) is declared", out + err)) if n in names], code

def admit(d, f, names):
    """Put an axiom of its own in the place of each of these proofs.  The names of the file that
    the proof mentions are still mentioned, so that the type of the lemma after the end of its
    section stays the same.  A name may occur twice in a file, then both are replaced."""
    p = d + "/" + f
    s = open(p).read()
    known = {m.group(1) for m in BLOCK.finditer(s)}
    for l in re.findall(r"^[ \t]*(?:Variables?|Hypothes[ie]s|Context|Let)\b[^.]*", s, re.M): known |= set(re.findall(r"\w+", l))
    known = {w for w in known if re.match(r"[A-Za-z]\w*$", w)} - set("Variable Variables Hypothesis Hypotheses Context Let forall exists fun match with end if then else let in as return fix Prop Set Type".split())
    done = []
    for m in reversed(list(BLOCK.finditer(s))):
        n = m.group(1)
        if n in names:
            used = [w for w in dict.fromkeys(re.findall(r"\w+", m.group(2))) if w in known and w != n]
            uses = "".join(" try (let _x := fresh in pose proof @%s as _x)." % w for w in used)
            ax = "broken__%s_%d" % (n, len(done))
            s = s[:m.start()] + "Axiom %s : forall P : Prop, P.\n" % ax + s[m.start():m.start(2)] + "Proof.%s exact (%s _). Qed." % (uses, ax) + s[m.end(2):]
            done.insert(0, n)
    open(p, "w").write(s)
    return done

def block_at(d, f, err):
    """name of the proof in which the error is"""
    m = re.search(r'File "[^"]*%s", line (\d+)' % re.escape(os.path.basename(f)), err or "")
    if not m: return None
    s = open(d + "/" + f).read()
    pos = sum(len(l) + 1 for l in s.split("\n")[:int(m.group(1)) - 1])
    for b in BLOCK.finditer(s):
        if s.rfind("\n", 0, b.start()) <= pos <= b.end(): return b.group(1)
    return None

def one(i):
    file, defn, old, new, claim, what = mutants.M[i]
    d = "/tmp/mutants/%03d" % i
    shutil.rmtree(d, ignore_errors=True)
    subprocess.run(["cp", "-a", BASE, d], check=True)
    p = d + "/theories/" + file
    s = open(p).read()
    assert s.count(old) == 1, (file, defn)
    open(p, "w").write(s.replace(old, new))
    for f in files(d):
        if "/Props" in f:
            t = open(d + "/" + f).read()
            t = re.sub(r"(^Example (?:(?!^Proof)[\s\S])*?)^Proof\.[\s\S]*?\bQed\.", r"\1Proof. Admitted.", t, flags=re.M)
            open(d + "/" + f, "w").write(t)
    dp = deps(d)
    dirty = {"theories/" + file}
    broken, props, rests, note = [], set(), {}, ""
    order = []
    def visit(f):
        if f in order: return
        for x in dp.get(f, []): visit(x)
        order.append(f)
    first = [f for f in files(d) if "/Props" in f and "Theorem " + claim + "_" in open(d + "/" + f).read()]
    for f in first + files(d): visit(f)
    for f in order:
        if f not in dirty and not any(x in dirty for x in dp.get(f, [])): continue
        dirty.add(f)
        code, out, err = run("coqc -q -Q theories Verif " + f, d, 900)
        if code:
            names, c2 = failing(d, f)
            done = admit(d, f, names)
            broken += [os.path.basename(f)[:-2] + "." + n for n in done]
            code, out, err = run("coqc -q -Q theories Verif " + f, d, 900)
            for _ in range(40):
                # a proof that is finished too early, or fails in another way
                n = block_at(d, f, err) if code and code != 124 else None
                if n is None or os.path.basename(f)[:-2] + "." + n in broken: break
                broken += [os.path.basename(f)[:-2] + "." + x for x in admit(d, f, [n])]
                code, out, err = run("coqc -q -Q theories Verif " + f, d, 900)
            if code:
                note = "stopped in %s: %s" % (f, (err or out)[-300:])
                break
        if "/Props" in f:
            thms = re.findall(r"^Print Assumptions (\w+)\.", open(d + "/" + f).read(), re.M)
            parts = re.split(r"(Closed under the global context|Axioms:)", out)[1:]
            for t, k, l in zip(thms, parts[0::2], parts[1::2]):
                if k == "Axioms:":
                    props.add(t)
                    rests[t] = sorted(set(re.findall(r"broken__(\w+)_\d+ :", l)))
            if any(t.startswith(claim + "_") for t in props) or (props and f not in first): break
    rec = dict(index=i, file=file, definition=defn, old=old, new=new, what=what, claim=claim, broken=broken,
               theorems=sorted(props), rests=rests, examples=[b for b in broken if b.endswith("_example")], note=note)
    with lock:
        with open(OUT, "a") as o: o.write(json.dumps(rec) + "\n")
    shutil.rmtree(d, ignore_errors=True)

if __name__ == "__main__":
    os.makedirs("/tmp/mutants", exist_ok=True)
    done = set()
    if os.path.exists(OUT):
        done = {json.loads(l)["index"] for l in open(OUT)}
    todo = [i for i in (IDX or range(len(mutants.M))) if i not in done]
    with ThreadPoolExecutor(WORKERS) as ex:
        for fu in [ex.submit(one, i) for i in todo]: fu.result()
