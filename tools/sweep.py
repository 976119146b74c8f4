"""Try every small wrong program of a kind against the proofs.

    sweep.py LOG [JOBS] [FILE ...]

Every literal, reader of an integer, operator, pair of neighbouring statements,
pair of neighbouring arguments of a constructor, condition, base of an offset and
error of Tape.v and Model*.v (or the given files) is changed, one at a time, in
a copy of the built directory under /tmp/mutants.  What is not well-typed is left out.  The
copy is rebuilt up to the first proof that fails.  One line per edit is appended
to LOG; what is there already is not tried again.
"""

import glob, json, os, re, shutil, subprocess, sys

sys.path.insert(0, os.path.dirname(os.path.abspath(__file__)))
from mutate import enclosing, head, root


def code_only(text):
    """Blank comments, keeping positions."""
    out, depth, i = [], 0, 0
    while i < len(text):
        if text.startswith("(*", i):
            depth += 1
            out.append("  ")
            i += 2
        elif depth and text.startswith("*)", i):
            depth -= 1
            out.append("  ")
            i += 2
        else:
            out.append(text[i] if depth == 0 or text[i] == "\n" else " ")
            i += 1
    return "".join(out)


replacements = [
    (r"\btake_u16\b", "take_u32"), (r"\btake_u32\b", "take_u16"), (r"\btake_u8\b", "take_u16"),
    (r"\btake_i16\b", "take_i32"), (r"\btake_i32\b", "take_i16"),
    (r"&&", "||"), (r"\|\|", "&&"), (r"<=\?", "<?"), (r"<\?", "<=?"), (r"(?<!<)=\?", "<=?"),
    (r"\btrue\b", "false"), (r"\bfalse\b", "true"), (r" \+ ", " * "), (r" \* ", " + "), (r" - ", " + "),
    (r"\braise Malformed\b", "raise Unsupported"), (r"\braise Unsupported\b", "raise Malformed"),
    (r"\braise UnexpectedEnd\b", "raise Malformed"),
    (r"\b(jump_take\w*) position\b", r"\1 (position + 1)"), (r"\bErr Malformed\b", "Err Unsupported"),
    (r"\bErr UnexpectedEnd\b", "Err Malformed"), (r"\bjump_take_maybe\b", "jump_take"),
    (r"\bstay\b", "id"), (r"\bpeek\b", "id"), (r"\bNone\b", "(Some 0)"), (r"\bN\.land\b", "N.lor"),
]


def edits(text):
    """The pairs of a span and its replacement."""
    code = code_only(text)
    result = []
    for match in re.finditer(r"(?<![\w.])\d+(?![\w.])", code):
        line = code[code.rfind("\n", 0, match.start()) + 1:match.end()]
        if "level" in line:
            continue
        value = int(match.group())
        result.append((match.start(), match.end(), str(value + 1)))
        if value > 1:
            result.append((match.start(), match.end(), str(value - 1)))
    for pattern, new in replacements:
        for match in re.finditer(pattern, code):
            result.append((match.start(), match.end(), match.expand(new) if "\\" in new else new))
    # Neighbouring statements.
    bind = re.compile(r"^ *(\w+) <- [^;]*?;;\n", re.M)
    for match in bind.finditer(code):
        follow = bind.match(code, match.end())
        if follow and match.group(1) != "_" and not re.search(r"\b%s\b" % match.group(1), follow.group()):
            result.append((match.start(), follow.end(), text[match.end():follow.end()] + match.group()))
    # Neighbouring arguments of a constructor.
    for match in re.finditer(r"\((mk\w+|\w+Format\d\w*) ([\w' ]+)\)", code):
        words = match.group(2).split()
        for i in range(len(words) - 1):
            if words[i] != words[i + 1]:
                swapped = words[:i] + [words[i + 1], words[i]] + words[i + 2:]
                result.append((match.start(), match.end(), "(%s %s)" % (match.group(1), " ".join(swapped))))
    for match in re.finditer(r"\bif ((?:[^()]|\([^()]*\))*?) then\b", code):
        result.append((match.start(), match.end(), "if negb (%s) then" % match.group(1)))
    return sorted(set(result))


def attempt(file, text, edit, directory, jobs):
    start, end, new = edit
    lines = text.split("\n")
    number = text[:start].count("\n")
    at = enclosing(lines, number)
    if at < 0:
        return None
    path = os.path.join(directory, "theories", file)
    shutil.rmtree(directory, ignore_errors=True)
    subprocess.check_call(["cp", "-a", os.path.join(root, "rocq"), directory])
    with open(path, "w") as target:
        target.write(text[:start] + new + text[end:])
    check = subprocess.run(["timeout", "120", "coqc", "-Q", "theories", "Verif", "theories/" + file], cwd=directory,
        stdout=subprocess.PIPE, stderr=subprocess.STDOUT)
    if check.returncode:
        return None
    subprocess.check_call([sys.executable, os.path.join(root, "tools", "gen_steps.py"),
        os.path.join(directory, "theories")])
    # The proof about the readers of the file first, then those that tell most, then all.
    targets = ["theories/%so" % name for name in
        [file.replace("Model", "Proof"), "ProofErrors.v", "ProofParts.v", "ProofCursor.v"]]
    for target in [name for name in targets if os.path.exists(os.path.join(root, "rocq", name))] + [""]:
        command = "ulimit -v 9000000; timeout 3600 make -j%d COQC='timeout 900 coqc' %s 2>&1" % (jobs, target)
        result = subprocess.run(["bash", "-c", command], cwd=directory, stdout=subprocess.PIPE)
        if result.returncode:
            break
    output = result.stdout.decode(errors="replace")
    failed = []
    for name, line in re.findall(
            r'File "\./theories/(\w+\.v)", line (\d+), characters [^\n]*\n(?:[^\n]*\n){0,3}?Error', output):
        content = open(os.path.join(directory, "theories", name)).read().split("\n")
        place = enclosing(content, int(line) - 1)
        failed.append("%s (%s)" % (head.match(content[place]).group(2) if place >= 0 else line, name))
    failed += ["timeout (%s.v)" % name for name in re.findall(r"theories/(\w+)\.vo\] Error 124", output)]
    left = max(0, start - 30)
    return {
        "definition": head.match(lines[at]).group(2),
        "file": file,
        "line": number + 1,
        "edit": "%s  =>  %s" % (
            " ".join((text[left:start] + "[" + text[start:end] + "]").split()), " ".join(new.split())),
        "killed": result.returncode != 0,
        "failed": failed}


if __name__ == "__main__":
    log, jobs = sys.argv[1], int(sys.argv[2]) if len(sys.argv) > 2 else 2
    names = sys.argv[3:] or ["Tape.v"] + sorted(
        os.path.basename(path) for path in glob.glob(os.path.join(root, "rocq/theories/Model*.v")))
    tried = set()
    if os.path.exists(log):
        tried = {(e["file"], e["line"], e["edit"]) for e in map(json.loads, open(log))}
    directory = "/tmp/mutants/%d" % os.getpid()
    os.makedirs(os.path.dirname(directory), exist_ok=True)
    for file in names:
        text = open(os.path.join(root, "rocq/theories", file)).read()
        for edit in edits(text):
            start, end, new = edit
            left = max(0, start - 30)
            key = (file, text[:start].count("\n") + 1, "%s  =>  %s" % (
                " ".join((text[left:start] + "[" + text[start:end] + "]").split()), " ".join(new.split())))
            if key in tried:
                continue
            entry = attempt(file, text, edit, directory, jobs)
            if entry is None:
                continue
            with open(log, "a") as target:
                target.write(json.dumps(entry) + "\n")
            print(entry["file"], entry["line"], entry["edit"],
                "KILLED" if entry["killed"] else "SURVIVED", entry["failed"][:2], flush=True)
    shutil.rmtree(directory, ignore_errors=True)
