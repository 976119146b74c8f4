"""Try wrong specifications against the theorems.

    specsweep.py LOG SEED COUNT [FILE ...]

Takes COUNT random edits of the specifications (rocq/theories/Spec*.v by default): a conjunct or
a part that is dropped, a number that is off by one, a comparison or a connective that is another.
Each is applied to a copy of the built directory under /tmp/specsweep, outside of /verif, which is
rebuilt until a proof fails.  One line per edit is appended to LOG; an edit that survives is of a
part of a specification that the theorems do not pin down.
"""

import glob, json, os, random, re, subprocess, sys

root = os.path.dirname(os.path.dirname(os.path.abspath(__file__)))
log, seed, count = sys.argv[1], int(sys.argv[2]), int(sys.argv[3])
files = sys.argv[4:] or sorted(os.path.basename(f) for f in glob.glob(root + "/rocq/theories/Spec*.v"))
base, work = "/tmp/specsweep/base", "/tmp/specsweep/work%d" % seed
if not os.path.exists(base):
    os.makedirs(base)
    subprocess.run(["cp", "-a", root + "/rocq/.", base], check=True)


def code(text):
    """The positions outside of comments."""
    inside, spans, i, start = 0, [], 0, 0
    while i < len(text):
        if text.startswith("(*", i):
            if not inside:
                spans.append((start, i))
            inside += 1
            i += 2
        elif text.startswith("*)", i) and inside:
            inside -= 1
            i += 2
            if not inside:
                start = i
        else:
            i += 1
    spans.append((start, len(text)))
    return spans


def edits(text):
    for a, b in code(text):
        chunk = text[a:b]
        for m in re.finditer(r"(?<![\w.\[])\d+(?![\w])", chunk):
            n = int(m.group())
            for k in ([n + 1, n - 1] if n else [1]):
                yield a + m.start(), a + m.end(), str(k)
        for m in re.finditer(r"(?<=[\s(])([^\s/()][^/\n]*?|\([^/\n()]*\)) /\\\s+", chunk):
            yield a + m.start(), a + m.end(), ""
        for m in re.finditer(r" /\\\s+([^/\n]*?)(?=\n  \||\.\n|\n  end)", chunk):
            yield a + m.start(), a + m.end(), ""
        for m in re.finditer(r" \+\+ \S[^\n+]*(?=\n)", chunk):
            yield a + m.start(), a + m.end(), ""
        for old, new in ((" <= ", " < "), (" < ", " <= "), (" /\\ ", " \\/ "), (" \\/ ", " /\\ "),
                         (" <-> ", " -> "), (" = ", " <> "), ("<?", "<=?"), (" true", " false"),
                         (" false", " true"), (" + ", " - "), (" - ", " + "), ("||", "&&"), ("&&", "||")):
            for m in re.finditer(re.escape(old), chunk):
                yield a + m.start(), a + m.end(), new


def within(text, at):
    names = re.findall(r"(?:Definition|Fixpoint|Inductive|Record)\s+(\w+)", text[:at])
    return names[-1] if names else ""


random.seed(seed)
pool = []
for f in files:
    text = open(base + "/theories/" + f).read()
    pool += [(f, a, b, new) for a, b, new in edits(text)]
random.shuffle(pool)
print(len(pool), "edits", flush=True)
done = set()
if os.path.exists(log):
    for line in open(log):
        d = json.loads(line)
        done.add((d["file"], d["start"], d["new"]))
for f, a, b, new in pool[:count]:
    if (f, a, new) in done:
        continue
    subprocess.run(["rm", "-rf", work], check=True)
    subprocess.run(["cp", "-a", base, work], check=True)
    path = work + "/theories/" + f
    text = open(path).read()
    open(path, "w").write(text[:a] + new + text[b:])
    command = "ulimit -v 6000000; nice make -j1 COQC='timeout 600 coqc' 2>&1"
    result = subprocess.run(["bash", "-c", command], cwd=work, stdout=subprocess.PIPE)
    output = result.stdout.decode(errors="replace")
    by = None
    if result.returncode:
        m = re.search(r'File "\./theories/(\w+\.v)", line (\d+)', output)
        by = [m.group(1), int(m.group(2))] if m else ["?", 0]
        if m and m.group(1) != f:
            lines = open(work + "/theories/" + m.group(1)).read().split("\n")[:int(m.group(2))]
            names = [re.match(r"(?:Lemma|Theorem|Example|Definition|Fixpoint|Corollary) (\w+)", l) for l in lines]
            names = [n.group(1) for n in names if n]
            by = [m.group(1), names[-1] if names else ""]
        elif m:
            by = [f, "ill typed"]
    entry = dict(file=f, line=text.count("\n", 0, a) + 1, definition=within(text, a), start=a,
                 old=text[a:b], new=new, killed=by is not None, by=by)
    open(log, "a").write(json.dumps(entry) + "\n")
    print(f, entry["line"], entry["definition"], repr(text[a:b]), "->", repr(new),
          "killed" if by else "SURVIVED", by, flush=True)
