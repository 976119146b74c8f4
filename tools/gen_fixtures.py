#!/usr/bin/env python3
"""Copy tables of the fonts in /repo/tests/fixtures into Coq files.

Usage: python3 tools/gen_fixtures.py [/repo]

Writes rocq/theories/FixtureData.v.  The generated file is committed; building does not
run this script.
"""
import os
import struct
import sys

REPO = sys.argv[1] if len(sys.argv) > 1 else "/repo"
OUT = os.path.join(os.path.dirname(os.path.abspath(__file__)), "..", "rocq", "theories")
WIDTH = 32

TABLES = [
    ("source_serif_gsub", "SourceSerifPro-Regular.otf", "GSUB"),
    ("source_serif_gpos", "SourceSerifPro-Regular.otf", "GPOS"),
    ("adobe_vf_gpos", "AdobeVFPrototype.ttf", "GPOS"),
    ("adobe_vf_gsub", "AdobeVFPrototype.ttf", "GSUB"),
    ("adobe_vf_fvar", "AdobeVFPrototype.ttf", "fvar"),
    ("adobe_vf_gdef", "AdobeVFPrototype.ttf", "GDEF"),
    ("crimson_text_gpos", "CrimsonText-Regular.ttf", "GPOS"),
    ("kalnia_glaze_cpal", "KalniaGlaze[wdth,wght].ttf", "CPAL"),
    ("kalnia_glaze_gdef", "KalniaGlaze[wdth,wght].ttf", "GDEF"),
    ("kalnia_glaze_fvar", "KalniaGlaze[wdth,wght].ttf", "fvar"),
    ("londrina_solid_gsub", "LondrinaSolid-Regular.ttf", "GSUB"),
    ("open_sans_gdef", "OpenSans-Italic.ttf", "GDEF"),
    ("open_sans_gsub", "OpenSans-Italic.ttf", "GSUB"),
    ("gingham_fvar", "Gingham.ttf", "fvar"),
    ("open_sans_directory", "OpenSans-Italic.ttf", None),
    ("source_serif_directory", "SourceSerifPro-Regular.otf", None),
]


def table(path, name):
    data = open(os.path.join(REPO, "tests", "fixtures", path), "rb").read()
    count = struct.unpack(">H", data[4:6])[0]
    if name is None:
        return 0, data[:12 + 16 * count]
    for i in range(count):
        tag, _, offset, length = struct.unpack(">4sIII", data[12 + 16 * i:28 + 16 * i])
        if tag.decode() == name:
            return offset, data[offset:offset + length]
    raise KeyError(name)


def main():
    with open(os.path.join(OUT, "FixtureData.v"), "w") as out:
        out.write("(** Tables of the fonts in tests/fixtures, generated by tools/gen_fixtures.py.\n\n"
                  "    Each numeral is a run of %d bytes, the last one of the rest. *)\n\n"
                  "From Verif Require Export Encode.\n\n" % WIDTH)
        out.write("Fixpoint run (k : nat) (n : N) (rest : list byte) : list byte :=\n"
                  "  match k with\n  | O => rest\n"
                  "  | S k => run k (n / 256) (byte_of (n mod 256) :: rest)\n  end.\n\n"
                  "Fixpoint runs (size : nat) (l : list N) : list byte :=\n"
                  "  match l with\n  | [] => []\n"
                  "  | n :: l => run (Nat.min size %d) n (runs (size - %d) l)\n  end.\n" % (WIDTH, WIDTH))
        for name, path, tag in TABLES:
            offset, data = table(path, tag)
            what = tag if tag else "the table directory"
            out.write("\n(** %s of tests/fixtures/%s: %d bytes at %d. *)\n" % (what, path, len(data), offset))
            out.write("Definition %s : list byte := runs (N.to_nat %d) [\n" % (name, len(data)))
            rows = [data[i:i + WIDTH] for i in range(0, len(data), WIDTH)]
            out.write(";\n".join("  0x" + row.hex() for row in rows))
            out.write("].\n")


main()
