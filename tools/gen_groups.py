# Writes theories/DhTable.v: the built-in DH groups, copied from src/internal.c 5735-5880.
import re
src=open('/repo/src/internal.c').read().split('\n')
out=['(* DhTable.v - the built-in Diffie-Hellman groups; generated by',
     '   tools/gen_groups.py from src/internal.c 5735-5880. *)',
     'From Verif Require Import Base.','From Coq Require Import List NArith.','Import ListNotations.','Open Scope N_scope.','']
def table(name):
    i=next(k for k,l in enumerate(src) if l.startswith('static const byte %s[] = {'%name))
    j=i; body=src[i].split('{',1)[1]
    while '}' not in src[j]: j+=1; body+=' '+src[j]
    body=re.sub(r'/\*.*?\*/','',body)
    v=[int(x,0) for x in re.findall(r'0x[0-9A-Fa-f]+|\d+',body)]
    return i+1,j+1,v
for n in ['dhGenerator','dhPrimeGroup1','dhPrimeGroup14','dhPrimeGroup16']:
    a,b,v=table(n)
    out.append('(* src/internal.c:%d-%d *)'%(a,b))
    out.append('Definition %s : bytes :=\n  ['%n)
    L=['; '.join(map(str,v[k:k+16])) for k in range(0,len(v),16)]
    out.append('   '+';\n   '.join(L)+'].'); out.append('')
open('/verif/rocq/theories/DhTable.v','w').write('\n'.join(out))
