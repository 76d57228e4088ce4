"""Write (or, with --check, compare) the files rocq/theories/Src*.v, which hold the texts of source files.

usage: gensrc.py [--check] [NAME path]     (path relative to /repo/interpolation)
"""
import sys

FILES = {
    "SrcEvalCubicNumba": "splines/eval_cubic_numba.py",
    "SrcBasisSplines": "splines/basis_splines.py",
    "SrcHermite": "splines/hermite.py",
    "SrcPrefilterCubic": "splines/prefilter_cubic.py",
    "SrcCodegen": "splines/codegen.py",
    "SrcCompletePoly": "complete_poly.py",
    "SrcFilterCubic": "splines/filter_cubic.py",
    "SrcSmolyakUtil": "smolyak/util.py",
    "SrcSmolyakGrid": "smolyak/grid.py",
    "SrcSmolyakInterp": "smolyak/interp.py",
    "SrcFungen": "multilinear/fungen.py",
    "SrcMlinterp": "multilinear/mlinterp.py",
    "SrcSplines": "splines/splines.py",
    "SrcMultilinear": "splines/multilinear.py",
    "SrcEvalCubic": "splines/eval_cubic.py",
}


def module(path):
    b = open("/repo/interpolation/" + path, "rb").read()
    lines = b.decode("utf8").split("\n")
    ident = path.split("/")[-1][:-3] + "_py"
    out = [
        "(** The text of interpolation/%s, byte for byte (%d bytes), cut in pieces of 20 lines." % (path, len(b)),
        "    Generated from the file; quotes are doubled, nothing else is changed. *)",
        "From Coq Require Import List.", "From Verif Require Import PySyntax.", "Import ListNotations.",
        "Open Scope text_scope.", "", "Definition %s : list text := [" % ident,
    ]
    ch = []
    for i in range(0, len(lines), 20):
        ch.append('"' + "\n".join(lines[i:i + 20]).replace('"', '""') + ("\n" if i + 20 < len(lines) else "") + '"')
    return "\n".join(out + [";\n".join(ch) + "].\n"])


args = sys.argv[1:]
check = "--check" in args
args = [a for a in args if a != "--check"]
for name, path in ({args[0]: args[1]} if args else FILES).items():
    target = "/verif/rocq/theories/%s.v" % name
    if check:
        print(name, "same" if open(target, newline="").read() == module(path) else "DIFFERENT")
    else:
        open(target, "w", newline="").write(module(path))
