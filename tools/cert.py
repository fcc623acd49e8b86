"""Evidence that numbers are prime, for prime_by of Primes.v."""
def steps(n,a,e):
    x=a; out=[]
    for d in bin(e)[3:]:
        v=x*x*(a if d=='1' else 1); out.append((v//n,v%n)); x=v%n
    return x,out[::-1]
def egcd(a,b):
    x0,x1,y0,y1=1,0,0,1
    while b: k=a//b; a,b=b,a-k*b; x0,x1=x1,x0-k*x1; y0,y1=y1,y0-k*y1
    return a,x0,y0
def num(x): return "0x%x"%x if x>=0 else "(-0x%x)"%-x
def lst(l): return "["+";\n  ".join("(%s, %s)"%(num(k),num(r)) for k,r in l)+"]"
def modulus(n): return n.bit_length(),2**n.bit_length()-n
def factors(n):
    fs=[]; d=2
    while n>1:
        if d*d>n: d=n
        if n%d==0:
            fs.append(d)
            while n%d==0: n//=d
        d+=1
    return sorted(fs,reverse=True)
def enough(n):
    out=[]; prod=1
    for f in factors(n-1):
        if (prod+1)**2>n: break
        out.append(f); prod*=f
    assert (prod+1)**2>n
    return out
def prime(n,known,done,name=None,value=None):
    """Text of the definitions and of the lemma; known: the factors to use for large numbers."""
    if n in done: return ""
    name=name or "prime_%d"%n; value=value or str(n)
    done[n]=name
    if n<20000:
        fuel=int(n**.5)+2
        return "Lemma %s : prime %s.\nProof. apply (no_divisor_prime _ %d); [lia|]. vm_compute. reflexivity. Qed.\n\n"%(name,value,fuel)
    fs=known.get(n) or enough(n)
    text="".join(prime(f,known,done) for f in fs)
    a=next(a for a in range(2,100) if pow(a,n-1,n)==1 and all(egcd(pow(a,(n-1)//f,n)-1,n)[0]==1 for f in fs))
    es=[]
    for i,f in enumerate(fs):
        m=(n-1)//f; assert m*f==n-1
        x,s=steps(n,a,m); one,rest=steps(n,x,f); assert one==1
        d,g,h=egcd((x-1)%n,n); assert d==1 and g*(x-1)+h*n==1
        e="evidence_%s_%d"%(name,i); es.append(e)
        text+="Definition %s : evidence := Evidence %d %d %d\n  %s\n  %s\n  %s %s.\n"%(e,f,m,a,lst(s),lst(rest),num(g),num(h))
    bits,gap=modulus(n)
    text+="Lemma %s : prime %s.\nProof.\n  apply (prime_by %s %d %d [%s]); [reflexivity|discriminate|reflexivity| |vm_compute; reflexivity|reflexivity| |vm_compute; reflexivity].\n"%(name,value,value,bits,gap,"; ".join(es))
    text+="  - repeat constructor; cbn; intros H; decompose [or] H; try contradiction; discriminate.\n"
    pat="[]"
    for _ in es: pat="[<-|%s]"%pat
    text+="  - intros e %s; [%s].\nQed.\n\n"%(pat,"|".join("exact "+done[f] for f in fs))
    return text
