"""Generate rocq/theories/StepsReaders.v: the readers of Model*.v over the steps of Steps.v.

The text of every definition that computes in the monad of Tape.v is taken over
as it is, with the type of the monad replaced.  The directory of the theories
can be given as an argument.
"""

import os
import re
import sys

root = os.path.dirname(os.path.dirname(os.path.abspath(__file__)))
theories = sys.argv[1] if len(sys.argv) > 1 else os.path.join(root, "rocq", "theories")

header = '''(** The readers, step by step.  Generated by tools/gen_steps.py from the files named below,
    each definition with the same text as there; only the monad is another. *)

From Verif Require Import ModelFont.
From Verif Require Export Steps.
Local Open Scope steps_scope.
'''

# Definitions that are in Steps.v, or stand for a call of another crate.
skipped = {"for_range", "take_checksum"}
# Definitions that make that call: the steps of the call become their parameter.
calling = {"font_position_loop", "font_position", "font_take"}

parts = [header]
for name in ["Tape", "ModelLayout", "ModelGdef", "ModelGsub", "ModelGpos", "ModelCpal", "ModelFvar", "ModelFont"]:
    text = open(os.path.join(theories, name + ".v")).read()
    if name == "Tape":
        text = text[text.index("(** A field [(u8)]"):]
    items = []
    for match in re.finditer(
            r"((?:\(\*\*(?:[^*]|\*(?!\)))*\*\)\n)?)(Definition|Fixpoint) (\w+)(.*?)\.\n(?=\n|Definition|Fixpoint|\Z)", text, re.S):
        comment, kind, definition, rest = match.groups()
        signature, body = rest.split(":=", 1)
        if definition in skipped or not re.search(r"\bM\b", signature):
            continue
        signature = re.sub(r"\bM\b", "steps", signature)
        if definition in calling:
            signature = signature.replace("(d : deps)", "(checksum_of : OffsetRecord -> steps N)")
            body = re.sub(r"\btake_checksum d\b", "checksum_of", body)
            body = re.sub(r"\b(font_\w+) d\b", r"\1 checksum_of", body)
        line = f"{comment}{kind} {definition}{signature}:={body}.\n"
        items.append(line)
    parts.append(f"(** ** {name}.v *)\n\n" + "\n".join(items))
path = os.path.join(theories, "StepsReaders.v")
content = "\n".join(parts)
if not os.path.exists(path) or open(path).read() != content:
    open(path, "w").write(content)
