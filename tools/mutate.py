"""Try wrong programs against the theorems.

    mutate.py MUTATIONS LOG [JOBS]

MUTATIONS is a JSON-lines file; each line has "file" (in rocq/theories), "old",
"new" and "claim".  Each edit is applied to a copy of the built directory under
/tmp/mutants, outside of /verif.  The copy is rebuilt; each lemma whose proof
fails is admitted in the copy and the rebuild continues, so that in the end
Print Assumptions tells exactly which property theorems no longer hold.  One
line per mutation is appended to LOG.
"""

import glob, json, os, re, shutil, subprocess, sys, time

root = os.path.dirname(os.path.dirname(os.path.abspath(__file__)))
head = re.compile(
    r"^(?:#\[[^\]]*\]\s*)?(?:Global |Local )?"
    r"(Lemma|Theorem|Corollary|Example|Fact|Remark|Instance|Definition|Fixpoint)\s+(\w+)")


def enclosing(lines, index):
    while index >= 0 and not head.match(lines[index]):
        index -= 1
    return index


def make(directory, jobs):
    command = (
        "ulimit -v 9000000; timeout 3600 make -k -j%d COQC='timeout 600 coqc' 2>&1" % jobs)
    result = subprocess.run(["bash", "-c", command], cwd=directory, stdout=subprocess.PIPE)
    return result.returncode, result.stdout.decode(errors="replace")


def admit(path, line):
    """Admit the proof around a line; return the name, or None if it is a statement."""
    lines = open(path).read().split("\n")
    start = enclosing(lines, line - 1)
    if start < 0:
        return None, None
    kind, name = head.match(lines[start]).groups()
    begin = start
    while begin < len(lines) and not lines[begin].lstrip().startswith("Proof"):
        begin += 1
    end = begin
    while end < len(lines) and not re.search(r"\b(Qed|Defined)\.\s*$", lines[end]):
        end += 1
    if end >= len(lines) or begin > line - 1 or any(head.match(l) for l in lines[start + 1:end]):
        if kind == "Example":
            stop = end if end < len(lines) else start
            del lines[start:stop + 1]
            open(path, "w").write("\n".join(lines))
            return kind, name
        return None, name
    lines[begin:end + 1] = ["Admitted."] + [""] * (end - begin)
    open(path, "w").write("\n".join(lines))
    return kind, name


def slow_line(directory, file):
    """The line a file that does not finish is stuck at."""
    command = "ulimit -v 9000000; timeout 300 coqc -time -Q theories Verif theories/%s" % file
    result = subprocess.run(["bash", "-c", command], cwd=directory, stdout=subprocess.PIPE,
        stderr=subprocess.STDOUT)
    offsets = re.findall(r"Chars (\d+) - (\d+)", result.stdout.decode(errors="replace"))
    end = int(offsets[-1][1]) if offsets else 0
    content = open(os.path.join(directory, "theories", file), "rb").read()
    return content[:end].count(b"\n") + 2


def properties():
    names = []
    for path in sorted(glob.glob(os.path.join(root, "rocq/theories/Properties*.v"))):
        module = os.path.basename(path)[:-2]
        names += [(module, name) for name in
            re.findall(r"^Theorem (C\d+\w*)", open(path).read(), re.M)]
    return names


def run(mutation, directory, jobs):
    if os.path.exists(directory):
        shutil.rmtree(directory)
    os.makedirs(os.path.dirname(directory), exist_ok=True)
    subprocess.check_call(["cp", "-a", os.path.join(root, "rocq"), directory])
    began = time.time()
    path = os.path.join(directory, "theories", mutation["file"])
    text = open(path).read()
    count = text.count(mutation["old"])
    if count != 1:
        raise ValueError("%d occurrences of %r in %s" % (count, mutation["old"], mutation["file"]))
    line = text[:text.index(mutation["old"])].count("\n")
    lines = text.split("\n")
    start = enclosing(lines, line)
    definition = head.match(lines[start]).group(2)
    open(path, "w").write(text.replace(mutation["old"], mutation["new"]))
    # The readers of StepsReaders.v have the same text.
    subprocess.check_call([sys.executable, os.path.join(root, "tools", "gen_steps.py"),
        os.path.join(directory, "theories")])
    lemmas, examples, stuck = [], [], []
    for _ in range(200):
        status, output = make(directory, jobs)
        if status == 0:
            break
        errors = set(re.findall(
            r'File "\./theories/(\w+\.v)", line (\d+), characters [^\n]*\n(?:[^\n]*\n){0,3}?Error', output))
        slow = set(re.findall(r"theories/(\w+)\.vo\] Error 124", output))
        errors |= {(file + ".v", slow_line(directory, file + ".v")) for file in slow}
        progress = False
        for file, number in errors:
            if file in stuck:
                continue
            if file == mutation["file"]:
                raise ValueError("ill-formed mutation: " + output[-600:])
            kind, name = admit(os.path.join(directory, "theories", file), int(number))
            if kind is None:
                stuck.append(file)
                lemmas.append(name or file)
            else:
                (examples if kind == "Example" else lemmas).append(name)
                progress = True
        if not progress:
            if not stuck:
                raise ValueError("no progress: " + output[-600:])
            break
    names = properties()
    built = [m for m in sorted({m for m, _ in names})
        if os.path.exists(os.path.join(directory, "theories", m + ".vo"))]
    script = "From Verif Require Import %s.\n" % " ".join(built)
    # What was not rebuilt does not depend on the edit.
    rebuilt = [m for m in built
        if os.path.getmtime(os.path.join(directory, "theories", m + ".vo")) >= began]
    for module, name in names:
        if module in rebuilt:
            script += 'Goal True. idtac "@%s". Abort.\nPrint Assumptions %s.\n' % (name, name)
    open(os.path.join(directory, "Survey.v"), "w").write(script)
    result = subprocess.run(["coqc", "-Q", "theories", "Verif", "Survey.v"], cwd=directory,
        stdout=subprocess.PIPE, stderr=subprocess.STDOUT)
    output = result.stdout.decode()
    failed = [name for module, name in names if module not in built]
    for part in output.split("@")[1:]:
        name, _, rest = part.partition("\n")
        if "Closed under the global context" not in rest:
            failed.append(name.strip())
    shutil.rmtree(directory)
    return {
        "definition": definition,
        "file": mutation["file"],
        "edit": "%s  =>  %s" % (" ".join(mutation["old"].split()), " ".join(mutation["new"].split())),
        "claim": mutation["claim"],
        "failed": sorted(failed),
        "lemmas": lemmas,
        "examples": examples,
        "tightened": []}


if __name__ == "__main__":
    mutations = [json.loads(line) for line in open(sys.argv[1]) if line.strip()]
    jobs = int(sys.argv[3]) if len(sys.argv) > 3 else 4
    for mutation in mutations:
        try:
            entry = run(mutation, "/tmp/mutants/%d" % os.getpid(), jobs)
        except (ValueError, subprocess.CalledProcessError) as error:
            print("SKIPPED", mutation["file"], mutation["old"], error, flush=True)
            continue
        with open(sys.argv[2], "a") as file:
            file.write(json.dumps(entry) + "\n")
        print(entry["definition"], "KILLED" if entry["failed"] else "SURVIVED",
            len(entry["failed"]), entry["lemmas"][:4], entry["examples"][:3], flush=True)
