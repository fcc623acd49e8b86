import re,subprocess,sys
f=sys.argv[1]
while True:
    r=subprocess.run(['coqc','-Q','.','Verif',f],capture_output=True,text=True)
    if r.returncode==0: print("OK"); break
    m=re.search(r'line (\d+)',r.stderr)
    ln=int(m.group(1))
    if 'EnvLaws E ->' not in r.stderr: print(r.stderr); break
    L=open(f).read().split('\n')
    i=ln-1
    while '(EL : EnvLaws E)' not in L[i]: i-=1
    print('fix',L[i])
    L[i]=L[i].replace(' (EL : EnvLaws E)','')
    open(f,'w').write('\n'.join(L))
