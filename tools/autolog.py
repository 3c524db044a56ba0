#!/usr/bin/env python3
"""Append the results of automatic seeded bugs to seeded/LOG.jsonl.

usage: autolog.py RESULTS.jsonl.. (one JSON object per attempt: file, defn, line, old, new, verdict,
lemma); needs a finished build. The build of an attempt stops at the first lemma that fails
("broken_lemmas"); "failed" are the property theorems whose proofs use it, taken from the .glob files:
the twelve nearest ones, "affected" is the number of all of them. A lemma that is used through a hint
database only is stood for by the lemmas below it in its file. The claim is that of the properties that
describe the functions of the edited file. survivors.json explains the attempts for which nothing failed."""
import bisect, collections, json, os, re, sys
HERE = os.path.dirname(os.path.abspath(__file__))
LOG = os.path.join(HERE, "..", "seeded", "LOG.jsonl")
TH = os.path.join(HERE, "..", "rocq", "theories")
users = collections.defaultdict(set)
order = {}
for d, _, fs in os.walk(TH):
    for f in fs:
        if not f.endswith(".glob") or d.endswith("Model"):
            continue
        lib, defs, refs = "", [], []
        for l in open(os.path.join(d, f)):
            if l.startswith("F"):
                lib = l[1:].strip()
            m = re.match(r"R(\d+):\d+ (\S+) (\S+) (\S+) (thm|def|prf)", l)
            if m:
                refs.append((int(m.group(1)), (m.group(2), m.group(4))))
                continue
            m = re.match(r"(?:prf|thm|def|ex) (\d+):\d+ \S+ (\S+)", l)
            if m:
                defs.append((int(m.group(1)), (lib, m.group(2))))
        defs.sort()
        pos = [x for x, _ in defs]
        for i, (_, n) in enumerate(defs):
            order[n] = [x for _, x in defs[i + 1:]]
        for x, t in refs:
            i = bisect.bisect(pos, x) - 1
            if i >= 0 and defs[i][1] != t:
                users[t].add(defs[i][1])
def theorems(lemma, at):
    n = ("Verif." + at[len("theories/"):-2].replace("/", "."), lemma)
    t = nearest([n])
    return t if t[0] else nearest(order.get(n, []))
def nearest(lemmas):
    dist = {l: 0 for l in lemmas}
    q = collections.deque(lemmas)
    while q:
        x = q.popleft()
        for y in users[x]:
            if y not in dist:
                dist[y] = dist[x] + 1
                q.append(y)
    t = sorted((k, n[1]) for n, k in dist.items() if re.match(r"C\d\d+_", n[1]) and not n[1].endswith("_case"))
    return [n for _, n in t[:12]], len(t)
CLAIMS = {
    "Pretty": "C98, C99 (the formatted text, exactly), C64, C82 (it reads back)", "Url": "C101 (workspaces of clone URLs)",
    "DoubleStar": "C102 (patterns of conditions)", "Glob": "C100 (Bitbucket patterns)", "Json": "C91, C92 (JSON manifests)",
    "Legacy": "C56-C60, C88 (conversion of 0.8 files)", "Image": "C22-C25, C70 (image references)",
    "Compiler": "C27-C40, C75-C77, C80, C81 (compiled specs)", "Decode": "C50-C52, C71, C72 (what yaml keys mean)",
    "Units": "C96, C97 (sizes)", "Cond": "C12-C15 (conditions)", "Quote": "C78 (quoting)", "Go": "functions of Go's library used throughout",
    "Main": "C69, C84-C87 (commands)", "RawParse": "C01-C04 (documents of a file)", "Lint": "C16-C21, C53 (linter)",
    "Emit": "C94, C95 (Encode)", "Gitlab": "C61, C89 (GitLab files)", "Path": "C42 (workspaces)", "Transform": "C43-C49 (transforms)",
    "Matrix": "C54, C55, C74 (matrix)", "Signer": "C05-C11 (signatures)", "Script": "C37, C78 (scripts)", "Encode": "C35, C79 (settings)",
    "Convert": "C63 (converters)", "Rand": "C41 (random names)", "Types": "types", "Bitbucket": "C62, C90 (Bitbucket files)",
    "Dind": "C26 (privileged images)", "Sha256": "the concrete MAC used in the examples"}
SURVIVORS = json.load(open(os.path.join(HERE, "survivors.json")))
have = {json.loads(l)["id"] for l in open(LOG)}
n = collections.Counter()
with open(LOG, "a") as out:
    for path in sys.argv[1:]:
        batch = os.path.basename(path).split(".")[0]
        for l in open(path):
            r = json.loads(l)
            v = r["verdict"].split()[0]
            i = batch + "-" + r["id"]
            if v not in ("killed", "SURVIVED") or i in have:
                continue
            if v == "killed":
                failed, affected = theorems(r["lemma"], r["at"])
                claim = CLAIMS[r["file"][len("Model/"):-2]]
                tightened, note = [], ""
            else:
                failed, affected = [], 0
                e = next((x for x in SURVIVORS if x["file"] == r["file"] and r["defn"] in x["defn"] and
                          x.get("batch", batch) == batch and x.get("old", r["old"]) == r["old"]), None)
                if e is None:
                    print("no explanation", i, r["file"], r["defn"], r["old"], r["new"], r["ctx"])
                    continue
                claim, tightened, note = e["claim"], e["tightened"], e["note"]
            n[v] += 1
            out.write(json.dumps({
                "id": i, "definition": r["file"] + ":" + r["defn"], "edit": {"line": r["line"], "old": r["old"], "new": r["new"]},
                "claim": claim, "failed": failed, "affected": affected, "broken_lemmas": [r["lemma"]] if r.get("lemma") and v == "killed" else [],
                "failed_examples": r["ex"], "tightened": tightened, "note": note}) + "\n")
print(n)
