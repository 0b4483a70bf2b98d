#!/usr/bin/env python3
"""Seeded-bug runner.  Usage: mutate.py MUTATIONS.json
Each entry: {"file","definition","old","new","claim","props":[..]}.  Copies the built
/verif/rocq to /tmp/mut, applies the edit to the model file, rebuilds with make -k and
collects every theorem whose proof no longer goes through (each failing proof is replaced
by Admitted in the copy so that later ones are tried too)."""
import json, subprocess, re, sys, os, shutil, time
SRC=os.environ.get("MUTSRC","/verif/rocq"); DST=os.environ.get("MUTDST","/tmp/mut")
START=re.compile(r"^\s*(?:#\[\w+\]\s*)?(?:Local |Global )?(Lemma|Theorem|Corollary|Example|Fact|Remark)\s+([\w']+)",re.M)
def run(m):
    subprocess.run(f"rm -rf {DST}; cp -a {SRC} {DST}",shell=True,check=True)
    p=f"{DST}/theories/{m['file']}"
    s=open(p).read()
    assert s.count(m["old"])>=1,("not found",m["old"])
    n=s.count(m["old"])
    assert n==1 or m.get("all"),("ambiguous",m["old"],n)
    open(p,"w").write(s.replace(m["old"],m["new"]))
    failed=[];other=[]
    for rnd in range(60):
        r=subprocess.run(["timeout","1500","make","-k","-j4"],cwd=DST,capture_output=True,text=True)
        if r.returncode==0: break
        txt=r.stdout+r.stderr
        errs=re.findall(r'File "\./theories/([\w.]+)", line (\d+), characters [\d-]+:\s*\n\s*(Error|Warning)?',txt)
        errs=[(f,int(l)) for f,l,k in errs if k!="Warning"]
        if not errs: other.append(txt[-400:]); break
        progress=False
        for f,l in set(errs):
            q=f"{DST}/theories/{f}"; t=open(q).read()
            lines=t.split("\n"); pos=sum(len(x)+1 for x in lines[:l-1])+len(lines[l-1])
            ms=[x for x in START.finditer(t) if x.start()<=pos]
            if not ms: other.append(f"{f}:{l}"); continue
            x=ms[-1]
            pr=t.find("Proof",x.end()); 
            ends=[(t.find(e,pr)+len(e)) for e in ("Qed.","Defined.") if t.find(e,pr)>=0]
            nxt=[y.start() for y in START.finditer(t) if y.start()>x.start()]
            if pr<0 or not ends or (nxt and pr>nxt[0]) or pos>min(ends):
                other.append(f"{f}:{l} (not in a proof)"); continue
            if pos<pr: other.append(f"{f}:{l} statement of {x.group(2)}"); continue
            failed.append(x.group(2)); t=t[:pr]+"Proof. Admitted."+t[min(ends):]
            open(q,"w").write(t); progress=True
        if not progress: break
    return failed,other,affected(failed) if failed else []
def affected(failed):
    """Manifest theorems that no longer stand: their own proof fails, or they rest on a lemma whose proof fails."""
    names=sorted({t for c in json.load(open("/verif/MANIFEST.json"))["claims"] for t in c["theorems"]})
    mods=[re.sub(r"theories/(\w+)\.v",r"\1",l.strip()) for l in open(f"{DST}/_CoqProject") if l.strip().endswith(".v")]
    where={};allmods={}
    for mo in mods:
        for x in START.finditer(open(f"{DST}/theories/{mo}.v").read()):
            where.setdefault(x.group(2),mo); allmods.setdefault(x.group(2),set()).add(mo)
    # only modules that (transitively) require a module with a failed proof
    req={mo:set(re.findall(r"\w+"," ".join(re.findall(r"From Verif Require Import ([^.]*)\.",open(f"{DST}/theories/{mo}.v").read())))) for mo in mods}
    hot={mo for x in failed for mo in allmods.get(x,())}
    ch=True
    while ch:
        ch=False
        for mo in mods:
            if mo not in hot and req[mo]&hot: hot.add(mo); ch=True
    txt="\n".join(f"Require Verif.{mo}." for mo in mods if mo in hot)+"\n"
    for n in names:
        if n in where and where[n] in hot: txt+=f'Definition mark__{n} := tt. Print mark__{n}.\nPrint Assumptions Verif.{where[n]}.{n}.\n'
    open(f"{DST}_deps.v","w").write(txt)
    r=subprocess.run(["coqc","-Q",f"{DST}/theories","Verif",f"{DST}_deps.v"],capture_output=True,text=True)
    if r.returncode: return ["?"+r.stderr[-200:]]
    out=[];cur=None
    for l in r.stdout.split("\n"):
        m=re.match(r"mark__([\w']+) =",l)
        if m: cur=m.group(1); continue
        m=re.match(r"([\w'.]+)\s*(:|$)",l)
        if cur and m and m.group(1).split(".")[-1] in failed and cur not in out: out.append(cur)
    return out
if __name__=="__main__":
    for m in json.load(open(sys.argv[1])):
        t0=time.time()
        try: failed,other,aff=run(m)
        except AssertionError as e: print("SKIP",m["definition"],e,flush=True); continue
        rec={"definition":m["definition"],"edit":m.get("edit",f"{m['old']}  ->  {m['new']}"),"claim":m["claim"],"failed":aff,"failing_proofs":failed,"tightened":[]}
        if other: rec["note"]="; ".join(other)
        print(json.dumps(rec),f"{time.time()-t0:.0f}s",flush=True)
        open("/tmp/mutlog.jsonl","a").write(json.dumps(rec)+"\n")
