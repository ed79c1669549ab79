"""Writes CubeCert.v and OrderCert.v: certificates re-checked by the kernel."""
import os
from ec import *
T=os.path.join(os.path.dirname(os.path.abspath(__file__)),'..','rocq','theories')
e=(P-1)//3
x,c=powchain(P,-7,e)
assert x%P!=1
l=";\n   ".join(f"({q}, None)" if r is None else f"({q}, Some ({r}))" for q,r in c)
open(T+'/CubeCert.v','w').write(f"""(** -7 is not a cube modulo p: (-7)^((p-1)/3) is not 1.  Generated by tools/gen_order.py. *)
From Coq Require Import ZArith List.
From Verif Require Import Fermat.
Import ListNotations.
Open Scope Z_scope.

Definition cube_chain : list (Z * option Z) :=
  [{l}].
Lemma cube_cert : ((-7) ^ {e}) mod {P} = {x%P}.
Proof.
  refine (eq_trans (powc_pow {P} (-7) {e} cube_chain ({x}) _ _ _) _).
  - vm_compute; reflexivity.
  - vm_compute; reflexivity.
  - vm_compute; reflexivity.
  - vm_compute; reflexivity.
Qed.
""")
blind=sum(v<<(32*i) for i,v in enumerate([2217680822,850875797,1046150361,1330484644,4015777837,2466086288,2052467175,2084507480]))
ca=naf(2**256-N); cb=naf(blind)
D=G; A=None; B=None; out=[]
def acc(A,D,d):
    if d==0: return A,"Skip"
    S=D if d>0 else (D[0],-D[1])
    if A is None: return S,("Take" if d>0 else "Untake")
    R,w=addw(A,S)
    return R,("Plus" if d>0 else "Minus")+" (%s)"%", ".join(map(par,w))
def par(v): return hex(v) if v>=0 else f"(-{hex(-v)})"
for k in range(256):
    A,oa=acc(A,D,ca[k] if k<len(ca) else 0)
    B,ob=acc(B,D,cb[k] if k<len(cb) else 0)
    assert A is None or 0<=A[0]<P
    D,w=dblw(D)
    out.append(f"({oa}, {ob}, ({', '.join(map(par,w))}))")
assert len(cb)<=256 and len(ca)<=256
assert A==D, (A,D)
assert B==mul(blind,G)
l=";\n   ".join(out)
open(T+'/OrderCert.v','w').write(f"""(** n*G = O and the blinding constant's multiple of G, by a checked chain of 256 doublings.
    Generated by tools/gen_order.py. *)
From Verif Require Import Word Spec Fp Curve Group Chain.

Definition order_chain : list entry :=
  [{l}].
Definition blind_x : Z := {B[0]}.
Definition blind_y : Z := {B[1]}.
Definition blind_val : Z := {blind}.
Lemma order_run : run (gx, gy) None None order_chain =
  Some (({D[0]}, {D[1]}), Some ({D[0]}, {D[1]}), Some (blind_x, blind_y)).
Proof. vm_compute. reflexivity. Qed.
Lemma order_val : run_val 1 0 0 order_chain = (2 ^ 256, 2 ^ 256 - {N}, blind_val).
Proof. vm_compute. reflexivity. Qed.
""")
