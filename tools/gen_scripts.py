#!/usr/bin/env python3
"""Copy the definition scripts of /repo into rocq/theories/GenScripts.v."""
import os
import sys

ROOT = "/repo/_definitions"
FILES = ["boot.lua", "bufr4/bufr4.lua", "bufr3/bufr3.lua", "bufr4/section1.lua", "bufr3/section1.lua",
         "common/section0.lua", "common/section2.lua", "common/section3.lua", "common/section4.lua",
         "common/section5.lua"]


def name(path):
    return "text_" + path[:-4].replace("/", "_")


def main(out):
    out.write('''(** The shipped definition scripts, character by character.

    Generated from /repo/_definitions: each constant is the content of the file named beside
    it (a double quote is written twice, as Coq requires). *)
From Coq Require Import String.
Local Open Scope string_scope.
''')
    for path in FILES:
        with open(os.path.join(ROOT, path)) as f:
            text = f.read()
        out.write('\n(** _definitions/%s *)\nDefinition %s : string := "%s".\n' % (path, name(path), text.replace('"', '""')))
    out.write("\n(** The files of the directory _definitions, by their path in it. *)\n")
    out.write("Definition shipped_scripts (path : string) : option string :=\n  ")
    for path in FILES:
        out.write('if String.eqb path "%s" then Some %s\n  else ' % (path, name(path)))
    out.write("None.\n")


if __name__ == "__main__":
    main(sys.stdout)
