#!/usr/bin/env python3
"""Generate the tag enumerations of the model from the `implement!` tables in /repo.

Usage: python3 tools/gen_tags.py [/repo]

Writes rocq/theories/TagsFeature.v, TagsScript.v and TagsLanguage.v.  The generated
files are committed; building does not run this script.
"""
import os
import re
import sys

REPO = sys.argv[1] if len(sys.argv) > 1 else "/repo"
OUT = os.path.join(os.path.dirname(os.path.abspath(__file__)), "..", "rocq", "theories")


def entries(path, with_codes):
    """The rows of the `implement! { .. }` invocation, in source order."""
    text = open(os.path.join(REPO, path), encoding="utf-8").read()
    start = text.index("implement! {")
    first_line = text.count("\n", 0, start) + 1
    end = text.index("\n}", start)
    last_line = text.count("\n", 0, end) + 2
    body = text[start + len("implement! {"):end]
    # A backslash before a line break skips the break and the leading whitespace.
    body = re.sub(r"\\\n\s*", "", body)
    pattern = r'\s*((?:#\[[^\]]*\]\s*)*)b"([^"]{4})" => "([^"]*)" => (\w+)'
    if with_codes:
        pattern += r' => "([^"]*)"'
    pattern += ","
    rows, position = [], 0
    for match in re.finditer(pattern, body):
        assert match.start() == position, (path, body[position:match.start()])
        position = match.end()
        attribute = match.group(1).strip()
        assert attribute in ("", '#[cfg(feature = "default-language")]'), attribute
        rows.append((attribute != "", match.group(2), match.group(3), match.group(4),
                     match.group(5) if with_codes else None))
    assert body[position:].strip() == "", body[position:]
    return rows, first_line, last_line


def tag(value):
    return "(Tag %s)" % " ".join('"%s"' % c for c in value)


def emit(module, kind, path, with_codes):
    rows, first, last = entries(path, with_codes)
    lower = kind.lower()
    gate = any(row[0] for row in rows)
    out = []
    w = out.append
    w("(** Generated by tools/gen_tags.py from %s:%d-%d.  Do not edit.\n" % (path, first, last))
    w("    The enumeration [%s], its tags and names%s, in source order. *)\n"
      % (kind, " and codes" if with_codes else ""))
    w("From Verif Require Export Bytes.")
    w("From Coq Require Import String.")
    w("Local Open Scope byte_scope.\n")
    w("(** [%s], %s:%d-%d: one constructor per row, and [Other]. *)" % (kind, path, first, last))
    w("Inductive %s :=" % kind)
    for row in rows:
        w("| %s%s" % (kind, row[3]))
    w("| %sOther (tag : tag).\n" % kind)
    w("(** The rows: tag and variant.  The flag is whether the row is only present with\n"
      "    the feature [default-language]. *)" if gate else "(** The rows: tag and variant. *)")
    w("Definition %s_rows : list (%stag * %s) := [" % (lower, "bool * " if gate else "", kind))
    w(";\n".join("  (%s%s, %s%s)" % (("true, " if row[0] else "false, ") if gate else "",
                                       tag(row[1]), kind, row[3]) for row in rows) + "].\n")
    w("(** [From<%s> for Tag]. *)" % kind)
    w("Definition %s_tag (value : %s) : tag :=" % (lower, kind))
    w("  match value with")
    for row in rows:
        w("  | %s%s => %s" % (kind, row[3], tag(row[1])))
    w("  | %sOther tag => tag" % kind)
    w("  end.\n")
    w("(** The position in the declaration, which the derived [Ord] compares first. *)")
    w("Definition %s_rank (value : %s) : N :=" % (lower, kind))
    w("  match value with")
    for i, row in enumerate(rows):
        w("  | %s%s => %d" % (kind, row[3], i))
    w("  | %sOther _ => %d" % (kind, len(rows)))
    w("  end%N.\n")
    w("(** [%s::name]. *)" % kind)
    w("Definition %s_name (value : %s) : option string :=" % (lower, kind))
    w("  match value with")
    for row in rows:
        w('  | %s%s => Some "%s"%%string' % (kind, row[3], row[2]))
    w("  | %sOther _ => None" % kind)
    w("  end.")
    if with_codes:
        w("\n(** The literal that [%s::codes] splits. *)" % kind)
        w("Definition %s_codes_literal (value : %s) : string :=" % (lower, kind))
        w("  match value with")
        for row in rows:
            w('  | %s%s => "%s"%%string' % (kind, row[3], row[4]))
        w('  | %sOther _ => ""%%string' % kind)
        w("  end.")
    open(os.path.join(OUT, module + ".v"), "w", encoding="utf-8").write("\n".join(out) + "\n")
    print(module, len(rows), "rows")


emit("TagsFeature", "Feature", "src/layout/feature.rs", False)
emit("TagsScript", "Script", "src/layout/script.rs", False)
emit("TagsLanguage", "Language", "src/layout/language.rs", True)
