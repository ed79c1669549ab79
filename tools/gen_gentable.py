"""Writes GenCert.v: none of the 64*16 entries of the generator table is the point at infinity."""
import os
from ec import *
T=os.path.join(os.path.dirname(os.path.abspath(__file__)),'..','rocq','theories')
nx=int.from_bytes(b"The scalar for this x is unknown",'big')
ny=pow(nx**3+7,(P+1)//4,P); assert (ny*ny-nx**3-7)%P==0
if ny&1: ny=P-ny
def par(v): return hex(v) if v>=0 else f"(-{hex(-v)})"
def tup(w): return "(%s)"%", ".join(map(par,w))
nums,wn=addw((nx,ny),G)
def row(Nn,Q):
    """2Q 3Q 4Q 5Q 6Q 8Q 7Q M=N+8Q"""
    q2,w2=dblw(Q); q3,w3=addw(q2,Q); q4,w4=dblw(q2); q5,w5=addw(q4,Q); q6,w6=dblw(q3); q8,w8=dblw(q4)
    q7,w7=addw(q8,(Q[0],-Q[1])); m,wm=addw(Nn,q8)
    for k in (Q,q2,q3,q4,q5,q6,q7): assert k[0]!=m[0]
    return q8,[w2,w3,w4,w5,w6,w8,w7,wm]
rows=[]; Q=G
for j in range(63):
    Q,w=row(nums,Q); rows.append(w)
q189=Q
dq=[]
for j in range(63): Q,w=dblw(Q); dq.append(w)
assert Q==mul(2**252,G)
dn=[]; D=nums
for j in range(63): D,w=dblw(D); dn.append(w)
n63,wl=addw(nums,(D[0],-D[1]))
_,last=row(n63,Q)
def lst(l): return "["+";\n   ".join(map(tup,l))+"]"
def pt(A): return f"({hex(A[0])}, {hex(A[1])})"
open(T+'/GenCert.v','w').write(f"""(** Certificates for the generator table: none of its 64*16 entries is the point at infinity.
    Generated by tools/gen_gentable.py. *)
From Verif Require Import Word Spec Fp Curve Group Chain GenChain.

Definition nums_x : Z := {hex(nx)}.
Definition nums_y : Z := {hex(ny)}.
Definition numsG : Z * Z := {pt(nums)}.
Lemma numsG_step : astep (nums_x, nums_y) (gx, gy) {tup(wn)} = Some numsG.
Proof. vm_compute. reflexivity. Qed.
Lemma nums_curve : nums_y * nums_y - (nums_x * nums_x * nums_x + 7) = {par((ny*ny-nx**3-7)//P)} * {P}.
Proof. vm_compute. reflexivity. Qed.
Definition gen_chain : list rowcert :=
  [{(";"+chr(10)+"   ").join(lst(r) for r in rows)}].
Definition q189 : Z * Z := {pt(q189)}.
Lemma gen_run : rows_chk numsG (gx, gy) gen_chain = Some q189.
Proof. vm_compute. reflexivity. Qed.
Definition q_chain : list wit :=
  {lst(dq)}.
Definition q252 : Z * Z := {pt(Q)}.
Lemma q_run : dbls q189 q_chain = Some q252.
Proof. vm_compute. reflexivity. Qed.
Definition n_chain : list wit :=
  {lst(dn)}.
Definition nums63 : Z * Z := {pt(D)}.
Lemma n_run : dbls numsG n_chain = Some nums63.
Proof. vm_compute. reflexivity. Qed.
Definition last_base : Z * Z := {pt(n63)}.
Lemma last_step : astep numsG (zneg nums63) {tup(wl)} = Some last_base.
Proof. vm_compute. reflexivity. Qed.
Lemma last_run : exists r, row_chk last_base q252 {lst(last)} = Some r.
Proof. eexists. vm_compute. reflexivity. Qed.
""")
