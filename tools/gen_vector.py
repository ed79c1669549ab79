"""Writes VectorCert.v: the nonce points of two published RFC 6979 test vectors, as a certified chain."""
import os, hashlib, hmac
from ec import *
T=os.path.join(os.path.dirname(os.path.abspath(__file__)),'..','rocq','theories')
def nonce(x,h):
    z=(int.from_bytes(h,'big')%N).to_bytes(32,'big'); xs=x.to_bytes(32,'big')
    H=lambda k,m:hmac.new(k,m,'sha256').digest()
    V=b'\1'*32; K=b'\0'*32
    K=H(K,V+b'\0'+xs+z); V=H(K,V); K=H(K,V+b'\1'+xs+z); V=H(K,V)
    return int.from_bytes(H(K,V),'big')
h=hashlib.sha256(b"Satoshi Nakamoto").digest()
ka=nonce(1,h); kb=nonce(N-1,h)
ca=naf(ka); cb=naf(kb)
D=G; A=None; B=None; out=[]
def par(v): return hex(v) if v>=0 else f"(-{hex(-v)})"
def acc(A,D,d):
    if d==0: return A,"Skip"
    S=D if d>0 else (D[0],-D[1])
    if A is None: return S,("Take" if d>0 else "Untake")
    R,w=addw(A,S)
    return R,("Plus" if d>0 else "Minus")+" (%s)"%", ".join(map(par,w))
L=max(len(ca),len(cb))
for k in range(L):
    A,oa=acc(A,D,ca[k] if k<len(ca) else 0)
    B,ob=acc(B,D,cb[k] if k<len(cb) else 0)
    D,w=dblw(D)
    out.append(f"({oa}, {ob}, ({', '.join(map(par,w))}))")
assert A==mul(ka,G) and B==mul(kb,G)
l=";\n   ".join(out)
open(T+'/VectorCert.v','w').write(f"""(** The nonce points of two RFC 6979 test vectors.  Generated by tools/gen_vector.py. *)
From Verif Require Import Word Spec Fp Curve Group Chain.

Definition vector_chain : list entry :=
  [{l}].
Definition va_k : Z := {ka}.
Definition va_x : Z := {A[0]}.
Definition va_y : Z := {A[1]}.
Definition vb_k : Z := {kb}.
Definition vb_x : Z := {B[0]}.
Definition vb_y : Z := {B[1]}.
Lemma vector_run : run (gx, gy) None None vector_chain =
  Some (({D[0]}, {D[1]}), Some (va_x, va_y), Some (vb_x, vb_y)).
Proof. vm_compute. reflexivity. Qed.
Lemma vector_val : run_val 1 0 0 vector_chain = (2 ^ {L}, va_k, vb_k).
Proof. vm_compute. reflexivity. Qed.
""")
for d,k,R in ((1,ka,A),(N-1,kb,B)):
    z=int.from_bytes(h,'big')%N; r=R[0]%N; s=(z+r*d)*pow(k,-1,N)%N; i=2*(R[0]//N)+R[1]%2
    if s>=(N-1)//2: s=N-s; i^=1
    print(hex(r),hex(s),i, 0<=R[1]<P)
