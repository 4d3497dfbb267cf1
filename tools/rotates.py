#!/usr/bin/env python3
"""Read the constant rotations of include/kripto/rotate.h as Coq tables."""
import re
t=open('/repo/include/kripto/rotate.h').read()
L={}
for n,l in enumerate(t.split('\n'),1):
    m=re.match(r'static inline uint(\d+)_t (ROL\d+_\d+)',l)
    if m: L[m.group(2)]=n
fs=re.findall(r'static inline uint(\d+)_t ROL(\d+)_(\d+)\(uint(\d+)_t x\)\n\{(.*?)\n\}',t,re.S)
out=[]
for w,w2,r,w3,b in fs:
    assert w==w2==w3
    asm=re.findall(r'"(rol|ror)(.) \$(\d+), %0"',b)
    p=re.search(r'return \(x (<<|>>) (\d+)\) \| \(x (<<|>>) (\d+)\);',b)
    assert p and p.group(1)=='<<' and p.group(3)=='>>',b
    assert len(asm)==1 and asm[0][0]=='rol',(w,r,asm)
    assert {'8':'b','16':'w','32':'l','64':'q'}[w]==asm[0][1],(w,r,asm)
    out.append((int(w),int(r),int(asm[0][2]),int(p.group(2)),int(p.group(4))))
mac=re.findall(r'#define ROR(\d+)_(\d+) ROL(\d+)_(\d+)',t)
print(len(out),len(mac),len(re.findall('#define RO',t)),len(re.findall('static inline',t)))
print('(** rotate.h:%d-: (width, r, asm count, left shift, right shift) *)'%min(L.values()))
print('Definition rol_consts : list (N * N * N * N * N) :=\n  ['+'; '.join('(%d,%d,%d,%d,%d)'%x for x in out)+'].')
print('Definition ror_macros : list (N * N * N * N) :=\n  ['+'; '.join('(%d,%d,%d,%d)'%tuple(map(int,x)) for x in mac)+'].')
