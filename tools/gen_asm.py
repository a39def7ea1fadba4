# Transcribes the straight-line field routines of /repo/sm2/sm2p256_amd64.s into rocq/theories/P256_asm_code.v.
import re
src=open('/repo/sm2/sm2p256_amd64.s').read().split('\n')
al1={'res_ptr':'DI','x_ptr':'SI','y_ptr':'CX','acc0':'R8','acc1':'R9','acc2':'R10','acc3':'R11','acc4':'R12','acc5':'R13','t0':'R14','t1':'R15'}
al2={'mul0':'AX','mul1':'DX','acc0':'BX','acc1':'CX','acc2':'R8','acc3':'R9','acc4':'R10','acc5':'R11','acc6':'R12','acc7':'R13','t0':'R14','t1':'R15','t2':'DI','t3':'SI','hlp':'BP'}
consts={'p256const2':0,'p256const3':1,'p256GmordK0':2,'p256Gmord':3,'p256Gmone':7}
def operand(o,al,ptr,frame):
    o=o.strip()
    if o.startswith('$'): return f'Imm {int(o[1:],0) & (2**64-1)}'
    m=re.match(r'\(8\*(\d)\)\((\w+)\)$',o)
    if m: return f'Mem {ptr[m.group(2)]} {m.group(1)}'
    m=re.match(r'(\w+)<>(?:\+0x(\w+))?\(SB\)$',o)
    if m: return f'Cst {consts[m.group(1)]+(int(m.group(2),16) if m.group(2) else 0)//8}'
    return 'Reg '+al.get(o,o)
def routine(name,first,last,al,ptr):
    out=[]
    for ln in range(first,last+1):
        l=src[ln-1].split('//')[0].strip()
        if not l or l.startswith('TEXT') or l.startswith('/*') or l.startswith('#'): continue
        for l in [x.strip() for x in l.split(';') if x.strip()]:
            if l=='RET' or l.endswith(':') or '(FP)' in l: continue
            op,args=l.split(None,1)
            a=[operand(x,al,ptr,None) for x in args.split(',')]
            # pointer register moves "MOVQ res_ptr, x_ptr" and the loop counter are handled by the Coq loop
            if op in('DECQ','JNE') : continue
            if l.replace(' ','')=='MOVQres_ptr,x_ptr': continue
            out.append((ln,op,a))
    body=';\n'.join('   '+f'{op} '+' '.join(f'({x})' for x in a)+f' (* :{ln} *)' for ln,op,a in out)
    body=re.sub(r'(\(\* :\d+ \*\));',r'; \1',body)
    return f'(* {name}, sm2p256_amd64.s:{first}-{last} *)\nDefinition c_{name} : list instr := [\n{body}].\n'
P1={'x_ptr':'0','y_ptr':'1','res_ptr':'2'}
hdr='''(** Generated by tools/gen_asm.py from /repo/sm2/sm2p256_amd64.s: the instructions of its straight-line field
    routines, one Coq constructor per instruction, with the line of each.  The #defined names are replaced by the
    registers they stand for; loads of the pointer arguments (MOVQ name+off(FP), reg) are dropped: the operand
    (8*i)(ptr) is [Mem k i], word i of argument k (0: first input, 1: second input, 2: result). *)
From Coq Require Import ZArith List.
From Verif Require Import P256_asm_model.
Import ListNotations.
Local Open Scope Z_scope.

'''
o=hdr
o+=routine('sm2p256Sqr',166,334,al1,P1)
o+=routine('sm2p256Mul',337,554,al1,P1)
o+=routine('sm2p256FromMont',557,651,al1,P1)
o+=routine('sm2p256OrdMul',792,1076,al1,P1)
o+=routine('sm2p256OrdSqr',1079,1330,al1,P1)
o+=routine('p256GmSubInternal',1361,1385,al2,{})
o+=routine('p256GmMulInternal',1387,1637,al2,{})
o+=routine('p256GmSqrInternal',1639,1846,al2,{})
open('/verif/rocq/theories/P256_asm_code.v','w').write(o)
