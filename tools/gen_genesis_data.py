import json,math,re
def S(s): return '(str "%s")'%s
def flt(x):
    m,e=math.frexp(x); m=int(m*2**53); e-=53
    if x==0: return '(S754_zero false)'
    return '(S754_finite %s %d (%d))'%('true' if x<0 else 'false',abs(m),e)
def J(x):
    if isinstance(x,bool): return '(JBool %s)'%str(x).lower()
    if isinstance(x,int): return '(JUint %d)'%x if x>=0 else '(JInt (%d))'%x
    if isinstance(x,float): return '(JFloat %s)'%flt(x)
    if isinstance(x,str): return '(JStr %s)'%S(x)
    if isinstance(x,list): return '(JArr [%s])'%'; '.join(map(J,x))
    if isinstance(x,dict): return '(JObj [%s])'%';\n    '.join('(%s, %s)'%(S(k),J(v)) for k,v in x.items())
D='/repo/test/data/genesis/'
out='''(** The main network's genesis files of the test suite (test/data/genesis/), as JSON values.  The Byron file is cut to its first entries. *)
From Coq Require Import String SpecFloat.
From Verif Require Import Base Spec_Genesis.
Local Open Scope list_scope.
'''
for e in ['shelley','alonzo','conway','byron']:
    d=json.load(open(D+e+'-genesis.json'))
    if e=='byron':
        for k in ['avvmDistr','bootStakeholders','heavyDelegation','nonAvvmBalances','vssCerts']: d[k]=dict(list(d[k].items())[:3])
    if e=='alonzo': d['costModels']['PlutusV1']=dict(list(d['costModels']['PlutusV1'].items())[:20])
    out+='Definition %s_mainnet : json :=\n  %s.\n'%(e,J(d))
out=out.replace("cut to its first entries.","cut to its first entries, the Alonzo cost model to its first 20.")
open('/verif/rocq/theories/Data_Genesis.v','w').write(out)
