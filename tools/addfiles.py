"""Append theory files to rocq/_CoqProject: addfiles.py Name ..."""
import sys, pathlib
p = pathlib.Path(__file__).resolve().parent.parent / "rocq" / "_CoqProject"
s = p.read_text().rstrip("\n").split("\n")
for f in sys.argv[1:]:
    l = f"theories/{f}.v"
    if l not in s:
        s.append(l)
p.write_text("\n".join(s) + "\n")
