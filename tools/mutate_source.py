#!/usr/bin/env python3
"""Edit a scratch copy of the C sources, regenerate the syntax trees and rebuild the proofs about them.
usage: mutate_source.py edits.json [--log]; an entry: {file, old, new, edit, claim, nth?}"""
import json, os, re, shutil, subprocess, sys
V=os.path.dirname(os.path.dirname(os.path.abspath(__file__)))
W=os.environ.get("WORK","/tmp/srcmut"); T=f"{W}/theories"; S=f"{W}/src"
CH=json.loads(os.environ.get("CHAIN",'["SourceClassical","SourceRun","SourceStream","SourceAlgo"]'))
GEN=os.environ.get("GEN","gen_source.py"); OUT=CH[0]
shutil.rmtree(T,ignore_errors=True); shutil.copytree(f"{V}/rocq/theories",T)
for e in json.load(open(sys.argv[1])):
    shutil.rmtree(S,ignore_errors=True); shutil.copytree("/repo/src",S)
    p=f"{S}/{e['file']}"; t=open(p).read(); n=e.get("nth",0); i=-1
    for _ in range(n+1):
        i=t.find(e["old"],i+1)
        if i<0: raise SystemExit("not found: "+e["old"])
    open(p,"w").write(t[:i]+e["new"]+t[i+len(e["old"]):])
    r=subprocess.run(["python3",f"{V}/tools/{GEN}",S],capture_output=True,text=True)
    failed=None
    if r.returncode!=0: failed="(not in the C subset) "+r.stderr.strip().split("\n")[-1]
    else:
        open(f"{T}/{OUT}.v","w").write(r.stdout)
        # VOS: compile the statements of the whole chain first (proofs skipped), then check the proofs of
        # each file, those most likely to be concerned first; without VOS: the chain in order
        vos=os.environ.get("VOS"); steps=[(f,[]) for f in CH]
        if vos:
            first=e.get("first",[])
            steps=[(f,["-vos"]) for f in CH]+[(f,["-vok"]) for f in first+[g for g in CH if g not in first]]
            for f in CH:
                for x in (".vo",".vos",".vok"):
                    try: os.remove(f"{T}/{f}{x}")
                    except FileNotFoundError: pass
        for f,opt in steps:
            q=subprocess.run(["timeout","900","coqc"]+opt+["-Q",".","Verif",f+".v"],cwd=T,capture_output=True,text=True)
            if q.returncode!=0:
                m=re.search(r"line (\d+)",q.stderr); ln=int(m.group(1)) if m else 0
                ls=open(f"{T}/{f}.v").read().split("\n")[:ln]; name="?"
                for l in ls:
                    mm=re.match(r"\s*(?:Lemma|Theorem|Definition|Example)\s+(\w+)",l)
                    if mm: name=mm.group(1)
                failed=f"{f}.{name}"; break
    print(("KILLED " if failed else "SURVIVED ")+e["edit"]+" -> "+str(failed),flush=True)
    if "--log" in sys.argv:
        with open(f"{V}/seeded/LOG.jsonl","a") as g:
            g.write(json.dumps({"definition":e.get("fun","?"),"file":"src/"+e["file"],"edit":"C source: "+e["edit"],"claim":e["claim"],"theorems_failed":[failed] if failed else [],
                "property_files_not_proved":[os.environ.get("PROP","Properties_Source")] if failed else [],"theorems_tightened":e.get("tightened",[]),"verdict":"caught" if failed else "survived"})+"\n")
