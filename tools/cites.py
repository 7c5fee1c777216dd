"""Checks the citations file.go:a-b [Name] in the Coq files against the ranges of the Go functions."""
import re,glob,os
gofiles={}
for d,_,fs in os.walk('/repo'):
    for f in fs:
        if f.endswith('.go'): gofiles.setdefault(f,[]).append(os.path.join(d,f))
def funcs(p):
    L=open(p).read().split('\n'); out=[]
    i=0
    while i<len(L):
        m=re.match(r'func (?:\([^)]*\) )?(\w+)',L[i]) or re.match(r'type (\w+) ',L[i])
        if m:
            j=i
            if not L[i].rstrip().endswith('}'):
                while j<len(L) and L[j]!='}': j+=1
            k=i
            while k>0 and L[k-1].startswith('//'): k-=1
            out.append((m.group(1),k+1,i+1,j+1)); i=j
        i+=1
    return out
for v in sorted(glob.glob('/verif/rocq/theories/*.v')):
    t=open(v).read()
    # join comments
    for m in re.finditer(r'([\w/]+\.go):(\d+)(?:-(\d+))?((?:\s*,?\s*\[\w+\])*)',t):
        line=t[:m.start()].count('\n')+1
        f,a,b,names=m.groups(); a=int(a); b=int(b or a)
        base=os.path.basename(f)
        c=[p for p in gofiles.get(base,[]) if p.endswith('/'+f)]
        ns=re.findall(r'\[(\w+)\]',names or '')
        best=None
        for p in c:
            F={}
            for n,d,s,e in funcs(p): F.setdefault(n,[]).append((d,s,e))
            if ns and all(n in F for n in ns):
                lo=min(min(x[0] for x in F[n]) for n in ns[:1]); 
                good=any(d<=a<=s and (b==e or len(ns)>1) for n in ns[:1] for d,s,e in F[n])
                best=(p,good,[(n,F[n]) for n in ns])
                if good: break
            elif best is None:
                enc=[(n,d,s,e) for n,d,s,e in funcs(p) if not(e<a or d>b)]
                best=(p,None,enc)
        if best is None: print(os.path.basename(v),line,m.group(0),'NOFILE'); continue
        if best[1] is True: continue
        print(os.path.basename(v),line,repr(m.group(0)),'MISMATCH' if best[1] is False else 'see',best[0][11:],best[2])
