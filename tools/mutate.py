#!/usr/bin/env python3
"""Seeded-bug runner. Usage: mutate.py MUTATIONS.py OUT.jsonl [ids...]
MUTATIONS.py defines M, a list of dicts: id, file (without .v), definition, edits [(old,new),...], edit (English), claim (English), expect [property ids].
For each one the model is edited in a scratch copy; everything that depends on it is rebuilt.
A proof that fails is replaced there by 'Admitted', so that the remaining files are still tried;
at the end Print Assumptions tells which main theorems rest on a failed proof."""
import sys, os, re, json, subprocess, shutil, importlib.util, time
from concurrent.futures import ThreadPoolExecutor
SRC=os.environ.get("SRC","/verif/rocq"); WORK="/tmp/mut"
man=json.load(open("/verif/MANIFEST.json"))
files=[l.strip()[9:-2] for l in open(SRC+"/_CoqProject") if l.strip().startswith("theories/")]
deps={}
for f in files:
    s=open(f"{SRC}/theories/{f}.v").read(); d=set()
    for m in re.finditer(r'From Verif Require (?:Import|Export)?([^.]*)\.',s): d|=set(m.group(1).split())
    deps[f]=d&set(files)
order=[]
def visit(f):
    if f in order: return
    for g in sorted(deps[f]): visit(g)
    order.append(f)
for f in files: visit(f)
files=order
thms={}
for f in files:
    for m in re.finditer(r'^(?:Theorem)\s+(C\d\d\w*)',open(f"{SRC}/theories/{f}.v").read(),re.M): thms[m.group(1)]=f
STMT=re.compile(r'^[ \t]*(?:#\[[^\]]*\]\s*)?(?:Local |Global )?(Lemma|Theorem|Example|Corollary|Fact|Remark)\s+([\w\']+)',re.M)
def coqc(d,f,to):
    try:
        r=subprocess.run(["coqc","-Q","theories","Verif",f"theories/{f}.v"],cwd=d,capture_output=True,text=True,timeout=to)
        return r.returncode,r.stdout+r.stderr
    except subprocess.TimeoutExpired:
        try:
            r=subprocess.run(["timeout",str(to),"coqc","-time","-Q","theories","Verif",f"theories/{f}.v"],cwd=d,capture_output=True,text=True)
            ch=[int(x) for x in re.findall(r'^Chars \d+ - (\d+)',r.stdout,re.M)]
            return -1,ch[-1] if ch else 0
        except Exception as e: return -1,0
def bytepos(raw,line,col):
    p=0
    for _ in range(line-1): p=raw.index(b"\n",p)+1
    return p+col
def one(mu):
    t0=time.time()
    d=f"{WORK}/{mu['id']}"; shutil.rmtree(d,ignore_errors=True); os.makedirs(WORK,exist_ok=True)
    subprocess.run(["cp","-a",SRC,d],check=True)
    p=f"{d}/theories/{mu['file']}.v"; s=open(p).read()
    for (a,b) in mu['edits']:
        if s.count(a)!=1: return dict(mu,error=f"edit text occurs {s.count(a)} times: {a[:60]}")
        s=s.replace(a,b)
    open(p,"w").write(s)
    dirty={mu['file']}; admitted=[]; log=[]
    for f in files:
        if f!=mu['file'] and not (deps[f]&dirty): continue
        dirty.add(f); n=0
        while True:
            rc,out=coqc(d,f,240)
            if rc==0: break
            n+=1
            if n>80: return dict(mu,error=f"too many failures in {f}",admitted=admitted)
            raw=open(f"{d}/theories/{f}.v","rb").read()
            if rc==-1: pos=out+1
            else:
                m=re.findall(r'line (\d+), characters (\d+)-(\d+):\s*\nError',out) or re.findall(r'line (\d+), characters (\d+)-(\d+):',out)
                if not m: return dict(mu,error=f"no location in {f}: {out[-300:]}")
                pos=bytepos(raw,int(m[-1][0]),int(m[-1][1]))
            txt=raw.decode(); cp=len(raw[:pos].decode(errors='ignore'))
            st=[x for x in STMT.finditer(txt) if x.start()<=cp]
            if not st: return dict(mu,error=f"failure outside a proof in {f}: {out[-300:] if rc!=-1 else 'timeout'}")
            st=st[-1]; name=st.group(2)
            pr=txt.find("Proof",st.start()); nx=STMT.search(txt,st.end())
            end=re.compile(r'\b(Qed|Defined)\.').search(txt,pr)
            if pr<0 or not end or (nx and nx.start()<pr) or cp<pr or cp>end.end():
                return dict(mu,error=f"failure not inside the proof of {name} in {f}: {out[-400:] if rc!=-1 else 'timeout'}",admitted=admitted)
            dot=txt.index(".",pr)+1
            txt=txt[:dot]+" Admitted."+txt[end.end():]
            open(f"{d}/theories/{f}.v","w").write(txt); admitted.append(name)
            msg=out.strip().split("\n") if rc!=-1 else ["timeout"]
            log.append(f"{f}.{name}: "+" ".join(msg)[-160:])
    affected=[t for t in thms if thms[t] in dirty]
    failed=[]
    if admitted:
        with open(f"{d}/chk.v","w") as o:
            o.write("From Verif Require "+" ".join(sorted({thms[t] for t in affected}))+".\n")
            for t in affected: o.write(f'Goal True. idtac "@@ {t}". exact I. Qed.\nPrint Assumptions Verif.{thms[t]}.{t}.\n')
        r=subprocess.run(["coqc","-Q","theories","Verif","chk.v"],cwd=d,capture_output=True,text=True)
        if r.returncode!=0: return dict(mu,error="chk: "+r.stderr[-300:],admitted=admitted)
        for blk in r.stdout.split("@@ ")[1:]:
            t=blk.split()[0]; 
            if any(re.search(r'(?:^|\.)'+re.escape(a)+r'\s*:',blk,re.M) for a in admitted) or any(re.search(r'^\s*(?:\w+\.)*'+re.escape(a)+r'\s*$',blk,re.M) for a in admitted): failed.append(t)
    direct=[a for a in admitted if a in thms]
    exp={e:[t for t in thms if t.startswith(e+"_")] for e in mu.get('expect',[])}
    surv={e:[t for t in ts if t not in failed] for e,ts in exp.items()}
    ok=all(any(t in failed for t in ts) for ts in exp.values())
    shutil.rmtree(d,ignore_errors=True)
    return dict(mu,failed=failed,admitted=admitted,survived=surv,caught=ok,first=log[:3],secs=round(time.time()-t0))
if __name__=="__main__":
    spec=importlib.util.spec_from_file_location("m",sys.argv[1]); m=importlib.util.module_from_spec(spec); spec.loader.exec_module(m)
    want=set(sys.argv[3:]); ms=[x for x in m.M if not want or x['id'] in want]
    def run(x):
        try: return one(x)
        except Exception as e: return dict(x,error=repr(e))
    with ThreadPoolExecutor(int(os.environ.get("J","4"))) as ex, open(sys.argv[2],"a") as o:
        for r in ex.map(run,ms):
            o.write(json.dumps(r)+"\n"); o.flush()
            print(r['id'],"ERROR "+r['error'] if 'error' in r else ("caught" if r['caught'] else "** SURVIVED **"),len(r.get('failed',[])),"failed",len(r.get('admitted',[])),"admitted",r.get('secs'),"s",{k:len(v) for k,v in r.get('survived',{}).items()},flush=True)
