"""Writes a P_*.v file: genp.py OUT HEADER-FILE then lines 'THEOREM lemma | comment' on stdin.
Statements are copied from the Lemma of the given name in the L_*.v files."""
import re, sys, glob
out, header = sys.argv[1], open(sys.argv[2]).read()
src = "\n".join(open(f).read() for f in sorted(glob.glob('theories/L_*.v')))
body = []
for line in sys.stdin:
    line = line.rstrip("\n")
    if not line.strip():
        continue
    if line.startswith("@"):
        body.append(open(line[1:].strip()).read().rstrip("\n") + "\n")
        continue
    names, comment = line.split("|", 1)
    thm, lem = names.split()
    m = re.search(r"Lemma %s\b(.*?)\nProof\." % re.escape(lem), src, re.S)
    text, depth = m.group(1), 0
    for k, ch in enumerate(text):
        depth += (ch in "([{") - (ch in ")]}")
        if ch == ":" and depth == 0:
            break
    args, stmt = text[:k].strip(), text[k + 1:].strip()
    q = ("forall %s,\n  " % args) if args else ""
    body.append("(* %s *)\nTheorem %s :\n  %s%s\nProof. exact %s. Qed.\nPrint Assumptions %s.\n" % (comment.strip(), thm, q, stmt.lstrip(), lem, thm))
open(out, "w").write(header + "\n" + "\n".join(body))
