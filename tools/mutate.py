#!/usr/bin/env python3
"""Mutation testing in a scratch copy.  Usage: mutate.py batch.json
Each entry: {file, old, new, definition, edit, claim, count?}.  Appends results to seeded/LOG.jsonl."""
import json, os, re, subprocess, sys, time
SRC="/verif/rocq"; BASE="/tmp/mut/base"; WORK="/tmp/mut/work"
def sh(c, t=None):
    try: return subprocess.run(c, shell=True, stdout=subprocess.PIPE, stderr=subprocess.STDOUT, timeout=t).stdout.decode()
    except subprocess.TimeoutExpired as e: return (e.stdout or b"").decode()+"\nTIMEOUT"
def enclosing(path, line):
    name="?"
    for i,l in enumerate(open(path)):
        if i+1>line: break
        m=re.match(r"\s*(?:Theorem|Lemma|Example|Definition|Fixpoint|Corollary|Record)\s+([\w']+)", l)
        if m: name=m.group(1)
    return name
def theorems(f): return re.findall(r"^(?:Theorem)\s+([\w']+)", open(f).read(), re.M)
def props_missing():
    out=[]
    for f in sorted(os.listdir(WORK+"/theories")):
        if f.startswith("Properties_") and f.endswith(".v") and not os.path.exists(WORK+"/theories/"+f+"o"):
            out.append(f[:-2])
    return out
if not os.path.exists(BASE) or "--refresh" in sys.argv:
    os.makedirs(BASE, exist_ok=True); sh(f"rm -rf {BASE}; cp -a {SRC} {BASE}")
for e in json.load(open(sys.argv[1])):
    sh(f"rm -rf {WORK}; cp -a {BASE} {WORK}")
    p=f"{WORK}/theories/{e['file']}"; s=open(p).read()
    n=e.get("nth",0)
    if e["old"] not in s: print("NOT FOUND", e["edit"]); continue
    parts=s.split(e["old"])
    if len(parts)>2 and "nth" not in e: print("AMBIGUOUS", len(parts)-1, e["edit"]); continue
    s=e["old"].join(parts[:n+1])+e["new"]+e["old"].join(parts[n+1:])
    open(p,"w").write(s); t=time.time()
    # files whose .vo is stale are rebuilt; remove dependents' .vo first so that a missing .vo means "not proved"
    out=sh(f"cd {WORK} && timeout 1500 make -k -j2 2>&1", 1600)
    fails=[]
    for m in re.finditer(r'File "\./theories/(\w+)\.v", line (\d+).*?\n(Error.*?)\n', out, re.S):
        k=f"{m.group(1)}.{enclosing(WORK+'/theories/'+m.group(1)+'.v', int(m.group(2)))}"
        if k not in fails: fails.append(k)
    rebuilt={f for f in os.listdir(WORK+"/theories") if f.endswith(".vo") and os.path.getmtime(WORK+"/theories/"+f)>t-1}
    stale=[f[:-2] for f in sorted(os.listdir(WORK+"/theories")) if f.startswith("Properties_") and f.endswith(".v") and f+"o" not in rebuilt]
    # property files that do not depend on the edit are not rebuilt either: make -n says whether they are up to date
    blocked=[]
    for f in stale:
        r=sh(f"cd {WORK} && make -n theories/{f}.vo 2>&1")
        if "COQC" in r or "coqc" in r: blocked.append(f)
    res={"definition":e["definition"],"file":e["file"],"edit":e["edit"],"claim":e["claim"],
         "theorems_failed":fails, "property_files_not_proved":blocked,
         "theorems_tightened":[], "verdict":"caught" if fails else ("TIMEOUT" if "TIMEOUT" in out else "SURVIVED")}
    if "note" in e: res["note"]=e["note"]
    print(int(time.time()-t),"s",res["verdict"],e["edit"],fails,blocked, flush=True)
    if "--log" in sys.argv and (fails or "--all" in sys.argv): open("/verif/seeded/LOG.jsonl","a").write(json.dumps(res)+"\n")
    else: open("/tmp/mut/survivors.jsonl","a").write(json.dumps(res)+"\n")
