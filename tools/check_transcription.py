"""Compare every reader of the crate with the definition that models it.

Each [table!] is translated, field by field, into the statement the model should
have, and compared with the definition whose comment cites its lines.  The
fields of the record in Types.v must have the same names in the same order.  A
reader that is one choice of a format is translated as a whole, and one that is
written by hand statement by statement.  What is not understood is printed, to
be compared by eye.

    python3 tools/check_transcription.py [REPOSITORY]
"""

import glob, os, re, sys

repository = sys.argv[1] if len(sys.argv) > 1 else "/repo"
root = os.path.dirname(os.path.dirname(os.path.abspath(__file__)))
theories = os.path.join(root, "rocq", "theories")


def blank(text):
    """Blank comments, keeping the positions of everything else."""
    return re.sub(r"//[^\n]*", lambda match: " " * len(match.group()), text)


def closing(text, start):
    """The position of the bracket that closes the one at start."""
    depth = 0
    for i in range(start, len(text)):
        if text[i] in "({[":
            depth += 1
        elif text[i] in ")}]":
            depth -= 1
            if depth == 0:
                return i
    raise ValueError


def squeeze(text):
    return re.sub(r"\s+", " ", text).strip()


def split_fields(text):
    """Split at the commas that are outside brackets and outside closure arguments."""
    result, depth, bars, start = [], 0, 0, 0
    for i, c in enumerate(text):
        if c in "({[<":
            depth += 1
        elif c in ")}]" or c == ">" and text[i - 1] not in "= ":
            depth -= 1
        elif c == "|" and depth == 0:
            bars += 1
        elif c == "," and depth == 0 and bars % 2 == 0:
            result.append(text[start:i])
            start = i + 1
    result.append(text[start:])
    return [squeeze(field).replace("r#type", "type_") for field in result if squeeze(field)]


tables = []
for path in sorted(glob.glob(os.path.join(repository, "src", "**", "*.rs"), recursive=True)):
    name = os.path.relpath(path, repository)
    source = open(path).read()
    plain = blank(source)
    for match in re.finditer(r"^(table!|flags!) \{", plain, re.M):
        if match.group(1) == "flags!":
            continue
        end = closing(plain, match.end() - 1)
        body = plain[match.end():end]
        header = re.search(r"pub (\w+) \{", body)
        fields = body[header.end():closing(body, header.end() - 1)]
        lines = (plain.count("\n", 0, match.start()) + 1, plain.count("\n", 0, end) + 1)
        tables.append((name, lines, header.group(1), "@position" in body[:header.start()],
                       "@define" in body[:header.start()], split_fields(fields)))

# The readers of the model, by the lines they cite.
readers, by_type = {}, {}
for path in sorted(glob.glob(os.path.join(theories, "Model*.v"))):
    text = open(path).read() + "\n"
    for match in re.finditer(
            r"\(\*\* \[(\w+)(?:<U>)?(?:::\w+)?\](?:[^*]|\*(?!\)))*?(src/[\w/]+\.rs):(?:\d+-\d+ and )?(\d+)-(\d+)"
            r"(?:[^*]|\*(?!\)))*\*\)\s+Definition (read_\w+)(.*?)\.\n\n",
            text, re.S):
        kind, file, first, last, definition, rest = match.groups()
        readers[file, int(first), int(last)] = (definition, rest)
        by_type.setdefault(kind, []).append((file, definition))

types = open(os.path.join(theories, "Types.v")).read()
cited = {}
for match in re.finditer(r"(src/[\w/]+\.rs):(\d+)-(\d+)(?:[^*]|\*(?!\)))*\*\)\s+Record (\w+)", types):
    cited[match.group(1), int(match.group(2)), int(match.group(3))] = match.group(4)

records = {}
for match in re.finditer(r"^Record (\w+)[^\n]*:= mk\w+ \{(.*?)\}\.", types, re.M | re.S):
    records[match.group(1)] = [field.split(":")[0].strip() for field in
                               re.sub(r"\(\*.*?\*\)", "", match.group(2), flags=re.S).split(";") if field.strip()]

scalars = {"u8": "take_u8", "u16": "take_u16", "u32": "take_u32", "i16": "take_i16", "q32": "take_q32",
           "Tag": "take_tag", "GlyphID": "take_u16", "NameID": "take_u16"}
flags = {("src/layout/lookup.rs", "Flags"): "take_lookup_flags",
         ("src/tables/glyph_positioning/mod.rs", "Flags"): "take_value_flags",
         ("src/tables/font_variations/mod.rs", "AxisFlags"): "take_axis_flags"}


def reader_of(kind, file):
    if kind in scalars:
        return scalars[kind]
    if (file, kind) in flags:
        return flags[file, kind]
    path = kind.split("::")
    candidates = by_type.get(path[-1], [])
    if len(path) > 1:
        candidates = [c for c in candidates if "/" + path[-2] + ".rs" in c[0] or "/" + path[-2] + "/" in c[0]]
    near = [c for c in candidates if c[0] == file] or \
        [c for c in candidates if os.path.dirname(c[0]) == os.path.dirname(file)] or candidates
    if len(near) == 1:
        return near[0][1]
    return None


# Which definition takes which offset of whichever header of GDEF.
offset_of = {}
for match in re.finditer(r"Definition (\w+) \(header : GdefHeader\) : N :=\s+match header with\s(.*?)\send\.",
                         open(os.path.join(theories, "ModelGdef.v")).read(), re.S):
    offset_of[match.group(1)] = squeeze(match.group(2))

# The closures that occur once.
closures = {
    "if this.parameter_offset > 0 { tape.jump(position + this.parameter_offset as u64)?; "
    "Ok(Some(tape.take_bytes(0)?)) } else { Ok(None) }":
        "if 0 <? parameter_offset then q <- add_u64 position parameter_offset;; _ <- jump q;; "
        "bytes <- take_vec 0 take_u8;; ret (Some bytes) else ret None",
    "let per_item_count = this.short_delta_count + this.region_count; "
    "tape.take_given(this.item_count as usize * per_item_count as usize)":
        "per_item_count <- add_u16 short_delta_count region_count;; "
        "take_vec (item_count * per_item_count) take_u8",
}


def statement(file, field):
    """The statement for a field, or None."""
    match = re.fullmatch(r"(\w+) \(([^()]*(?:\([^()]*\))?[^()]*)\)(?: = \{ ?(\w+) ?\})?(?: \|([^|]*)\| \{ ?(.*?) ?\})?", field)
    if not match:
        return None
    name, kind, constant, arguments, body = match.groups()
    kind = kind.strip()
    inner = re.fullmatch(r"(?:Vec<Option|Vec|Option)<(.*?)>+", kind)
    one = reader_of(inner.group(1) if inner else kind, file)
    if body is None:
        if inner or one is None:
            return None
        return f"{name} <- take_const {one} {constant};;" if constant else f"{name} <- {one};;"
    if body in closures:
        return f"{name} <- ({closures[body]});;"
    if one is None:
        return None
    match = re.fullmatch(r"tape\.take_given\(this\.(\w+) as usize\)", body)
    if match and kind.startswith("Vec<"):
        return f"{name} <- take_vec {match.group(1)} {one};;"
    match = re.fullmatch(r'if this\.(\w+) == 0 \{ raise!\("found a malformed [\w ]*"\); \} '
                         r"tape\.take_given\(this\.(\w+) as usize - 1\)", body)
    if match and match.group(1) == match.group(2) and kind.startswith("Vec<"):
        count = match.group(1)
        return f"{name} <- (if {count} =? 0 then raise Malformed else take_vec ({count} - 1) {one});;"
    match = re.fullmatch(r"jump_take!\(tape, position, this\.(\w+)\)", body)
    if match:
        return f"{name} <- jump_take position {match.group(1)} {one};;"
    match = re.fullmatch(r"jump_take_maybe!\(tape, position, this\.(\w+)\)", body)
    if match and kind.startswith("Option<"):
        return f"{name} <- jump_take_maybe position {match.group(1)} {one};;"
    match = re.fullmatch(r"(?:Ok\()?jump_take(_maybe)?!\(tape, position, this\.(\w+), this\.(\w+)\)\)?", body)
    if match:
        return f"{name} <- jump_take{match.group(1) or ''}_n position {match.group(2)} {match.group(3)} {one};;"
    match = re.fullmatch(r"jump_take!\(tape, position, this\.(\w+), i => this\.(\w+)\[i\]\.offset\)", body)
    if match:
        return (f"{name} <- jump_take_each position {match.group(1)} "
                f"(fun i => h <- index {match.group(2)} i;; ret (_offset h)) {one};;")
    match = re.fullmatch(r"jump_take_given!\( ?tape, position, this\.(\w+), this\.(\w+), \(?((?:this\.\w+(?:, )?)+)\)? ?\)", body)
    if match and kind.startswith("Vec<"):
        parameters = match.group(3).replace("this.", "").replace(",", "")
        return f"{name} <- jump_take_n position {match.group(1)} {match.group(2)} ({one} {parameters});;"
    match = re.fullmatch(r"jump_take_given!\(tape, position, this\.(\w+), this\.(\w+)\)", body)
    if match:
        return f"{name} <- jump_take position {match.group(1)} ({one} {match.group(2)});;"
    match = re.fullmatch(r"jump_take_maybe!\( tape, position, field!\(this\.(\w+) => (\w+)(?:\((\d)\))?, "
                         r"Header::\{([\w, ]+)\}\) \)", body)
    if match and kind.startswith("Option<"):
        header, offset, default, versions = match.groups()
        arms = [f"| Gdef{v} table => gdef_{v.replace('Version', 'header')}_{offset} table"
                for v in versions.split(", ")] + ([f"| _ => {default}"] if default else [])
        chosen = [f for f, arms_ in offset_of.items() if arms_ == " ".join(arms)]
        return chosen and f"{name} <- jump_take_maybe position ({chosen[0]} {header}) {one};;"
    match = re.fullmatch(r"tape\.take_given\(\(((?:\w|[.,]| )+)\)\)", body)
    if match:
        return f"{name} <- {one} {match.group(1).replace('this.', '').replace(',', '')};;"
    match = re.fullmatch(r"\(0\.\.this\.(\w+)\) ?\.map\(\|_\| tape\.take_given\(\(?((?:\w|[.,]| )+)\)?\)\) ?\.collect\(\)", body)
    if match:
        parameters = match.group(2).replace("this.", "").replace(",", "")
        return f"{name} <- for_n {match.group(1)} (fun _ => {one} {parameters});;"
    return None


def statements(text):
    """The statements of a reader, one bind each."""
    text = squeeze(re.sub(r"\(\*.*?\*\)", "", text, flags=re.S))
    result, depth, start = [], 0, 0
    i = 0
    while i < len(text):
        if text[i] in "([{":
            depth += 1
        elif text[i] in ")]}":
            depth -= 1
        elif text.startswith(";;", i) and depth == 0:
            result.append(text[start:i + 2].strip())
            start = i + 2
            i += 1
        i += 1
    return result, text[start:].strip()


def alike(have, names):
    return len(have) == len(names) and all(h.endswith("_" + n.rstrip("_")) for h, n in zip(have, names))


same = defined = 0
failures, unknown, by_hand = [], [], []
for file, lines, kind, position, define, fields in tables:
    where = f"{file}:{lines[0]}-{lines[1]} {kind}"
    names = [field.split(" ")[0] for field in fields]
    if define:
        # The reader is written by hand: the record only.
        record = cited.get((file, *lines))
        if record is None or not alike(records[record], names):
            failures.append(f"{where}: {record} has the fields {records.get(record)}, the source has {names}")
        else:
            defined += 1
        continue
    if (file, *lines) not in readers:
        failures.append(f"{where}: no reader cites these lines")
        continue
    definition, rest = readers[file, lines[0], lines[1]]
    signature, body = rest.split(":=", 1)
    model, last = statements(body)
    if position:
        if not model or model[0] != "position <- get_position;;":
            failures.append(f"{where}: {definition} does not keep the position")
        model = model[1:]
    elif any(statement.startswith("position <-") for statement in model):
        failures.append(f"{where}: {definition} keeps the position")
    if [statement.split(" <- ")[0] for statement in model] != names:
        failures.append(f"{where}: {definition} has {[s.split(' <- ')[0] for s in model]}, the source has {names}")
        continue
    if not re.fullmatch(r"ret \(mk(\w+) " + " ".join(names) + r"\)", last):
        failures.append(f"{where}: {definition} ends with {last}")
        continue
    record = re.match(r"ret \(mk(\w+)", last).group(1)
    have = records.get(record, [])
    if not alike(have, names):
        failures.append(f"{where}: {record} has the fields {have}")
    for field, line in zip(fields, model):
        expected = statement(file, field)
        if expected is None:
            unknown.append((where, field, line))
        elif expected == re.sub(r"ret \(\w+?(_offset h)\)", r"ret (\1)", line).replace("<- ( ", "<- ("):
            same += 1
        else:
            failures.append(f"{where}: {line}\n    expected {expected}")

# The choices: [impl Read for X] that is one match on a number.
chosen = 0
for path in sorted(glob.glob(os.path.join(repository, "src", "**", "*.rs"), recursive=True)):
    file = os.path.relpath(path, repository)
    plain = blank(open(path).read())
    for match in re.finditer(r"^impl(?:<\w+>)? crate::[vw]alue::Read(?:<'static>)? for (\w+)(?:<\w+>)?\s(?:where[^{]*)?\{", plain, re.M):
        end = closing(plain, match.end() - 1)
        choice = re.search(r"Ok\(match (tape\.peek::<(\w+)>\(\)\?|r#type) \{(.*)\}\)\s*\}\s*$", plain[match.end():end], re.S)
        lines = (plain.count("\n", 0, match.start()) + 1, plain.count("\n", 0, end) + 1)
        where = f"{file}:{lines[0]}-{lines[1]} {match.group(1)}"
        if not choice:
            by_hand.append(where)
            continue
        if (file, *lines) not in readers:
            failures.append(f"{where}: no reader cites these lines")
            continue
        definition, rest = readers[file, lines[0], lines[1]]
        model = squeeze(rest.split(":=", 1)[1])
        arms = []
        for number, variant in re.findall(r"(\w+) => \w+::(\w+)\(tape\.take\(\)\?\),", choice.group(3)):
            arms.append((number, variant))
        default = re.search(r'(?:value|_) => (?:\{\s*)?raise!\("found an unknown (format|version|type)', choice.group(3))
        have = re.fullmatch(r"(?:value <- peek (\w+);; )?match (\w+) with (.*) \| _ => raise (\w+) end", model)
        if not default or not have or len(arms) + 1 != choice.group(3).count("=>"):
            by_hand.append(where)
            continue
        got = re.findall(r"\| (\w+) => v <- (\w+);; ret \((\w+) v\)", have.group(3))
        fine = (have.group(1) == scalars[choice.group(2)] if choice.group(2) else have.group(1) is None)
        fine = fine and have.group(4) == "Unknown" + default.group(1).capitalize()
        fine = fine and len(got) == len(arms) == have.group(3).count("=>")
        for (number, variant), (n, reader, constructor) in zip(arms, got):
            fine = fine and int(number, 0) == int(n, 0) and constructor.endswith(variant)
            # The reader of the variant: that of the type it holds.
            enum = re.search(r"pub enum " + match.group(1) + r" \{(.*?)\n\}", plain, re.S)
            held = enum and re.search(r"\b" + variant + r"\((\w+)\)", enum.group(1))
            expected = held and reader_of(held.group(1), file)
            if expected is None:
                print(f"{where}\n    source {variant}({held and held.group(1)})\n    model  {reader}")
            else:
                fine = fine and expected == reader
        if fine:
            chosen += 1
        else:
            failures.append(f"{where}: {definition} does not choose as the source does")


# The readers written by hand: statement by statement.
take_macro = ("macro_rules! take( ($flag:ident) => (if flags.$flag() { Some(tape.take()?) } else { None }); )")
linked_macro = ("macro_rules! take( ($offset:ident) => (match $offset { Some(offset) => "
                "jump_take_maybe!(@unwrap tape, position, offset), _ => None, }); )")
defaults = {"Anchor": "anchor_default", "Scripts": "scripts_default", "Features": "features_default",
            "Lookups": "lookups_default"}


correction = (
    "Ok(match tape.peek::<(u32, u16)>()?.1 { 1..=3 => Correction::Device(tape.take()?), "
    "0x8000 => Correction::Variation(tape.take()?), "
    'value => raise!("found an unknown format of the adjustment correction ({value})"), })',
    "value <- peek (_ <- take_u32;; take_u16);; "
    "if (1 <=? value) && (value <=? 3) then v <- read_device;; ret (CorrectionDevice v) "
    "else if value =? 0x8000 then v <- read_variation;; ret (CorrectionVariation v) else raise UnknownFormat")


def rust_statements(text):
    """Split at the semicolons outside brackets, and after a closing brace of a statement."""
    result, depth, start = [], 0, 0
    for i, c in enumerate(text):
        if c in "({[":
            depth += 1
        elif c in ")}]":
            depth -= 1
            opens = text[start:i].lstrip()
            if c == "}" and depth == 0 and re.match(r"(if|match) ", opens):
                result.append(squeeze(text[start:i + 1]))
                start = i + 1
        elif c == ";" and depth == 0:
            result.append(squeeze(text[start:i]))
            start = i + 1
    return [s.replace("r#type", "type_") for s in result], squeeze(text[start:]).replace("r#type", "type_")


def names_in(text):
    return [x.strip() for x in text.strip(", ").split(",")]


def by_hand_expected(file, kind, body, held, record):
    """The statements of the model for the body of a reader, or None."""
    rust, last = rust_statements(body)
    expected = []
    inner = {"Vec": None}

    def one(name):
        text = held[name]
        match = re.fullmatch(r"(?:Vec<Option|Vec|Option)<(.*?)>+", text)
        core = re.sub(r"<\w+>?$", "", match.group(1) if match else text)
        if core == "InstanceFlags":
            return "take_instance_flags"
        if core == "T":
            return "read_table"
        if core == "Offsets":
            return "read_offsets d"
        found = reader_of(core, file)
        return {"read_lookups": "(read_lookups read_table)",
                "read_lookup_record": "(read_lookup_record read_table)"}.get(found, found)

    def expression(name, text):
        """The statement for [let name = text], or None."""
        text = text.strip()
        if name == "position" and text == "tape.position()?":
            return "position <- get_position;;"
        reader = one(name) if name in held else None
        if reader is None:
            return None
        if re.fullmatch(r"tape\.take(::<(\w+)>)?\(\)\?", text):
            return f"{name} <- {reader};;"
        match = re.fullmatch(r"tape\.take_given\((\w+)(?: as usize)?\)\?", text)
        if match and held[name].startswith("Vec<"):
            return f"{name} <- take_vec {match.group(1)} {reader};;"
        match = re.fullmatch(r"\(0\.\.(\w+)\) ?\.map\(\|_\| tape\.take_given\(\(([\w, ]+)\)\)\) ?"
                             r"\.collect::<Result<Vec<_>>>\(\)\?", text)
        if match:
            return f"{name} <- for_n {match.group(1)} (fun _ => {reader} {match.group(2).replace(',', '')});;"
        match = re.fullmatch(r"tape\.stay\(\|tape\| jump_take(_maybe)?!\(tape, position, (\w+), (\w+)\)\)\?", text)
        if match:
            return (f"{name} <- stay (jump_take{match.group(1) or ''}_n position {match.group(2)} "
                    f"{match.group(3)} {reader});;")
        match = re.fullmatch(r"tape\.stay\(\|tape\| jump_take_given!\(tape, position, (\w+), (\w+), (\w+)\)\)\?", text)
        if match:
            return (f"{name} <- stay (jump_take_n position {match.group(1)} {match.group(2)} "
                    f"({reader} {match.group(3)}));;")
        match = re.fullmatch(r"jump_take!\(@unwrap tape, position, (\w+), (\w+)\)", text)
        if match:
            return f"{name} <- jump_take_n position {match.group(1)} {match.group(2)} {reader};;"
        match = re.fullmatch(r"jump_take_given!\(@unwrap tape, position, (\w+), (\w+), (\w+)\)", text)
        if match:
            return f"{name} <- jump_take_n position {match.group(1)} {match.group(2)} ({reader} {match.group(3)});;"
        match = re.fullmatch(r"jump_take_given!\(@unwrap tape, position, (\w+), (\w+)\)", text)
        if match and held[name].startswith("Vec<"):
            return f"{name} <- jump_take position {match.group(1)} (take_vec {match.group(2)} {reader});;"
        match = re.fullmatch(r"jump_take_maybe!\(@unwrap tape, position, (\w+)\)", text)
        if match and held[name].startswith("Option<"):
            return f"{name} <- jump_take_maybe position {match.group(1)} {reader};;"
        match = re.fullmatch(r"if (\w+)\.0 > 0 \{ Some\(tape\.take_given\(\(([\w, ]+)\)\)\?\) \} else \{ None \}", text)
        if match:
            return (f"{name} <- (if 0 <? {match.group(1)} then v <- {reader} "
                    f"{match.group(2).replace(',', '')};; ret (Some v) else ret None);;")
        match = re.fullmatch(r"if (\w+)\.(\w+)\(\) \{ Some\(tape\.take\(\)\?\) \} else \{ None \}", text)
        if match:
            return f"{name} <- (if {match.group(2)} {match.group(1)} then v <- {reader};; ret (Some v) else ret None);;"
        match = re.fullmatch(r"take!\((has_\w+)\)", text)
        if match and take_macro in rust:
            return f"{name} <- take_if ({match.group(1)} flags) {reader};;"
        match = re.fullmatch(r"match \((\w+), (\w+)\) \{ \((\d+), (\d+)\) => tape\.take\(\)\?, _ => 0, \}", text)
        if match:
            a, b, x, y = match.groups()
            return f"{name} <- (if ({a} =? {x}) && ({b} =? {y}) then {reader} else ret 0);;"
        match = re.fullmatch(r"\(0\.\.header\.(\w+) as u64\) ?\.map\(\|i\| \{ tape\.jump\(position \+ i \* header\.(\w+) as u64\)\?; "
                             r"tape\.take(?:_given\(header\.(\w+)\)|\(\)) \}\) ?\.collect::<Result<Vec<_>>>\(\)\?", text)
        if match:
            count, size, given = match.groups()
            given = f"({reader} (fvar_header_{given} header))" if given else reader
            return (f"{name} <- for_n (fvar_header_{count} header) (fun i => jump_take position "
                    f"(N.of_nat i * fvar_header_{size} header) {given});;")
        return None

    i = 0
    while i < len(rust):
        text = rust[i]
        if text == take_macro:
            i += 1
            continue
        # A pair of statements for the two builds.
        match = re.fullmatch(r'#\[cfg\(not\(feature = "([\w-]+)"\)\)\] let (\w+) = tape\.stay\(\|tape\| '
                             r"jump_take!\(tape, position, (\w+)\)\)\?", text)
        if match:
            feature, name, offset = match.groups()
            other = (f'#[cfg(feature = "{feature}")] let {name} = tape .stay(|tape| '
                     f"jump_take_maybe!(tape, position, {offset}))? .unwrap_or_default()")
            if rust[i + 1] != other:
                return None
            reader = one(name)
            expected.append("o <- ask;;")
            expected.append(f"{name} <- (if {feature.replace('-', '_')} o then v <- stay (jump_take_maybe position "
                            f"{offset} {reader});; ret (match v with Some v => v | None => {defaults[held[name]]} end) "
                            f"else stay (jump_take position {offset} {reader}));;")
            i += 2
            continue
        match = re.fullmatch(r'#\[cfg\(not\(feature = "ignore-incomplete-directories"\)\)\] let \(([\w, ]+)\) = '
                             r"\( ((?:jump_take!\(@unwrap tape, position, \w+\), )+)\)", text)
        if match:
            names = names_in(match.group(1))
            offsets = re.findall(r"position, (\w+)\)", match.group(2))
            other = ('#[cfg(feature = "ignore-incomplete-directories")] let (' + match.group(1) + ") = ( " +
                     "".join(f"jump_take_maybe!(@unwrap tape, position, {o}).unwrap_or_default(), " for o in offsets) + ")")
            if rust[i + 1] != other or len(names) != len(offsets):
                return None
            for name, offset in zip(names, offsets):
                kind = re.sub(r"<\w+>$", "", held[name])
                expected.append(f"{name} <- jump_take_list position {offset} {one(name)} {defaults[kind]};;")
            i += 2
            continue
        # Several values read before the cursor returns.
        match = re.fullmatch(r"let \( ?([\w, ]+)\) = tape\.stay\(\|tape\| \{ (.*) \}\)\?", text)
        if match:
            names = names_in(match.group(1))
            parts, final = rust_statements(match.group(2))
            if parts not in ([], [linked_macro]):
                return None
            final = re.fullmatch(r"Ok\(\( (.*), \)\)", final)
            values = re.findall(r"(jump_take_maybe|take)!\((?:@unwrap tape, position, )?(\w+)\)", final.group(1))
            if len(values) != len(names) or final.group(1).count("!") != len(names):
                return None
            inside = []
            for name, (macro, offset) in zip(names, values):
                if macro == "take":
                    inside.append(f"{name} <- take_linked position {offset};;")
                else:
                    inside.append(f"{name} <- jump_take_maybe position {offset} {one(name)};;")
            tuple_ = "(" + ", ".join(names) + ")"
            group = "corrections" if parts else "anchors"
            expected.append(f"{group} <- stay ( {' '.join(inside)} ret {tuple_});;")
            expected.append(f"let '{tuple_} := {group} in")
            i += 1
            continue
        match = re.fullmatch(r'if (\w+) > (\w+) \{ raise!\("found a malformed [\w ]+"\); \}', text)
        if match:
            expected.append(f"if {match.group(2)} <? {match.group(1)} then raise Malformed else")
            i += 1
            continue
        match = re.fullmatch(r'if (\w+) == 0 \|\| (\w+) > (\d+) \{ raise!\("found an unknown format [\w ]+\(\{\w+\}\)"\); \}', text)
        if match:
            expected.append(f"if ({match.group(1)} =? 0) || ({match.group(3)} <? {match.group(2)}) "
                            "then raise UnknownFormat else")
            i += 1
            continue
        match = re.fullmatch(r'match \((\w+), (\w+)\) \{ \((\d+), (\d+)\) \| \((\d+), (\d+)\) => \{\} '
                             r'value => raise!\("found an unknown version [\w ]+\{value:\?\}"\), \}', text)
        if match and match.group(3) == match.group(5):
            a, b, x, y, _, z = match.groups()
            expected.append(f"_ <- (if ({a} =? {x}) && (({b} =? {y}) || ({b} =? {z})) then ret tt else "
                            "raise UnknownVersion);;")
            i += 1
            continue
        match = re.fullmatch(r"position \+= header\.(\w+) as u64(?: \* header\.(\w+) as u64)?", text)
        if match:
            sum_ = f"fvar_header_{match.group(1)} header"
            if match.group(2):
                sum_ += f" * fvar_header_{match.group(2)} header"
            expected.append(f"position <- add_u64 position ({sum_});;")
            i += 1
            continue
        # Arithmetic in [usize].
        arithmetic = {"let count = (end_size - start_size) as usize + 1": "let count := end_size - start_size + 1 in",
                      "let bit_count = (1 << format as usize) * count": "let bit_count := N.shiftl 1 format * count in",
                      "let short_count = (bit_count + 16 - bit_count % 16) >> 4":
                          "let short_count := N.shiftr (bit_count + 16 - bit_count mod 16) 4 in",
                      "let (offset, count) = match header { "
                      "Header::Version0(ref header) => (header.color_offset, header.color_count as usize), "
                      "Header::Version1(ref header) => (header.color_offset, header.color_count as usize), }":
                          "let '(offset, count) := match header with "
                          "| CpalVersion0 header => (cpal_header0_color_offset header, cpal_header0_color_count header) "
                          "| CpalVersion1 header => (cpal_header1_color_offset header, cpal_header1_color_count header) "
                          "end in"}
        if text in arithmetic:
            expected.append(arithmetic[text])
            i += 1
            continue
        match = re.fullmatch(r"let (?:mut )?(\w+)(?:: [\w<>]+)? = (.*)", text)
        line = match and expression(match.group(1), match.group(2))
        if not line:
            return None
        expected.append(line)
        i += 1
    # The value.
    match = re.fullmatch(r"Ok\((?:Self|\w+) \{ (.*?),? \}\)", last)
    if not match:
        return None
    values = split_fields(match.group(1))
    order = [value.split(":")[0] for value in values]
    for value in values:
        if ":" in value:
            name, text = value.split(":", 1)
            line = expression(name, text)
            if not line:
                return None
            expected.append(line)
    if sorted(order) != sorted(held):
        return None
    expected.append(f"ret (mk{record} {' '.join(held)})")
    return expected


def model_statements(text):
    """As statements, with the binders that are not monadic apart."""
    lines, last = statements(text)
    result = []
    for line in lines + [last]:
        while True:
            match = re.match(r"let (?:\w+|'\([\w, ]+\)) := .*? in(?= )", line) or \
                re.match(r"if .*? then raise \w+ else(?= )", line)
            if not match or "<-" in match.group():
                break
            result.append(match.group())
            line = line[match.end():].strip()
        result.append(line)
    return result


def parameters_of(signature):
    """The names and the types of the parameters in the source."""
    match = re.search(r"tape: &mut T,?\s*(?:\(([\w, ]+)\)|(\w+))?(?:: (?:Self::Parameter|u64),?)?\s*\)", signature)
    return names_in(match.group(1) or match.group(2)) if match.group(1) or match.group(2) else []


written = 0
remaining = []
structures = {}
for path in sorted(glob.glob(os.path.join(repository, "src", "**", "*.rs"), recursive=True)):
    file = os.path.relpath(path, repository)
    plain = blank(open(path).read())
    for match in re.finditer(r"^pub struct (\w+)(?:<\w+>)? \{(.*?)^\}", plain, re.M | re.S):
        fields = {}
        for name, kind in re.findall(r"(?:pub |pub\(crate\) )?(?:r#)?(\w+): ([^,]+),", match.group(2)):
            fields["type_" if name == "type" else name] = kind.strip()
        structures[file, match.group(1)] = fields
for file, lines, kind, position, define, fields in tables:
    held = {}
    for field in fields:
        match = re.fullmatch(r"(\w+) \((.*?)\)(?: \|.*)?", field)
        if match:
            held[match.group(1)] = match.group(2).strip()
    structures.setdefault((file, kind), held)
for where in by_hand:
    place, kind = where.split(" ")
    file, lines = place.split(":")
    first, last = map(int, lines.split("-"))
    text = "\n".join(blank(open(os.path.join(repository, file)).read()).split("\n")[first - 1:last])
    start = text.index("{", text.index("-> Result<Self>"))
    body = text[start + 1:closing(text, start)]
    signature = text[:start]
    key = [k for k in readers if k[0] == file and k[1:] == (first, last)]
    fields = structures.get((file, kind))
    if not key or fields is None and kind != "Correction":
        remaining.append(where)
        continue
    definition, rest = readers[key[0]]
    header, model = rest.split(":=", 1)
    if kind == "Correction":
        if (squeeze(body), squeeze(model)) == correction:
            written += 1
        else:
            failures.append(f"{where}: {definition} does not choose as the source does")
        continue
    model = model_statements(model)
    record = re.match(r"ret \(mk(\w+)", model[-1])
    expected = record and by_hand_expected(file, kind, body, fields, record.group(1))
    if not expected:
        remaining.append(where)
        continue
    names = [n for group in re.findall(r"\(([\w ]+) : N\)", header) for n in group.split()]
    if names != parameters_of(signature):
        failures.append(f"{where}: {definition} has the parameters {names}, the source has {parameters_of(signature)}")
    elif model != expected:
        for have, want in zip(model, expected):
            if have != want:
                break
        failures.append(f"{where}: {definition} has {have}\n    expected {want}")
    elif not alike(records[record.group(1)], list(fields)):
        failures.append(f"{where}: {record.group(1)} has the fields {records[record.group(1)]}")
    else:
        written += 1
by_hand = remaining

# The flags: each mask, and the mask of what is refused.
masks = 0
names_of = {"src/layout/lookup.rs Flags": "lookup", "src/tables/glyph_positioning/element.rs Flags": "value",
            "src/tables/font_variations/mod.rs AxisFlags": "axis",
            "src/tables/font_variations/mod.rs InstanceFlags": "instance"}
model = "\n".join(open(path).read() for path in glob.glob(os.path.join(theories, "Model*.v")))
for path in sorted(glob.glob(os.path.join(repository, "src", "**", "*.rs"), recursive=True)):
    file = os.path.relpath(path, repository)
    for match in re.finditer(r"^flags! \{\s*pub (\w+)\(u16\) \{(.*?)\}", blank(open(path).read()), re.M | re.S):
        name = names_of.get(f"{file} {match.group(1)}")
        for mask, flag in re.findall(r"(\w+) => (\w+),", match.group(2)):
            definition = f"{name}_{flag}" if f"Definition {name}_{flag} " in model else flag
            found = re.findall(rf"Definition {definition} \(flags : N\) : bool := has_flag flags (\w+)\.", model)
            fine = [int(n, 0) for n in found] == [int(mask, 0)]
            if flag == "is_invalid":
                found = re.findall(rf"Definition take_{name}_flags : M N := take_flags (\w+)\.", model)
                fine = fine and [int(n, 0) for n in found] == [int(mask, 0)]
            if fine:
                masks += 1
            else:
                failures.append(f"{file} {match.group(1)}: {flag} is {mask}")

for where in by_hand:
    print(f"{where}\n    written by hand")
for where, field, line in unknown:
    print(f"{where}\n    source {field}\n    model  {line}")
for failure in failures:
    print("DIFFERS", failure)
print(f"{len(tables)} tables, {defined} of them without a reader, {same} fields as expected, {chosen} choices as expected, {written} readers written by hand as expected, {masks} masks as expected, {len(by_hand)} readers and {len(unknown)} fields to be compared by eye, {len(failures)} differ")
sys.exit(1 if failures else 0)
