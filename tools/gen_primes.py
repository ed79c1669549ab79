P=2**256-2**32-977
N=0xFFFFFFFFFFFFFFFFFFFFFFFFFFFFFFFEBAAEDCE6AF48A03BBFD25E8CD0364141
q=205115282021455665897114700593932402728804164701536103180137503955397371
r=255515944373312847190720520512484175977
big=341948486974166000522343609283189
b2=29047611873442575647497758179
# name -> (n, factor list used)
tree=[
 (107590001,[]),(7240687,[]),(96557,[]),(41201,[]),
 (r,[107590001,7240687,96557,41201]),
 (q,[r]),(P,[q]),
 (1627771,[]),
 (297159362677,[1627771]),
 (b2,[297159362677,545358713]),
 (545358713,[28181]),(28181,[]),(9349,[]),
 (big,[b2]),
 (174723607534414371449,[44706919,120233]),
 (44706919,[9349]),(120233,[]),
 (N,[big,174723607534414371449]),
]
def chain(n,a,e):
    x=1; out=[]
    for c in bin(e)[2:]:
        y=x*x; qq=y//n; y-=qq*n
        if c=='1':
            z=y*a; q2=z//n; x=z-q2*n; out.append((qq,q2))
        else: x=y; out.append((qq,None))
    return x,out
o=[]
o.append("""(** Primality of the field characteristic and of the group order: Pocklington certificates.
    Generated; every certificate is re-checked by the kernel. *)
From Coq Require Import ZArith Znumtheory List.
From Verif Require Import Fermat.
Import ListNotations.
Open Scope Z_scope.

Definition q0 (q : Z) : Z * option Z := (q, None).
Definition q1 (q q2 : Z) : Z * option Z := (q, Some q2).
""")
done=set()
order=[]
def visit(n):
    if n in done: return
    f=dict(tree)[n]
    for g in f: visit(g)
    done.add(n); order.append((n,f))
visit(P); visit(N)
for n,f in order:
    nm={P:'field_p',N:'order_n'}.get(n,str(n))
    if not f:
        o.append(f"Lemma prime_{nm} : prime {n}.\nProof. apply (prime_trial (Z.to_nat {int(n**0.5)+3})); vm_compute; reflexivity. Qed.\n")
        continue
    R=1
    for g in f: R*=g
    assert R*R>n, (n,)
    for i,g in enumerate(f):
        assert (n-1)%g==0
        a=2
        while True:
            assert pow(a,n-1,n)==1
            b=pow(a,(n-1)//g,n)
            import math
            if math.gcd(b-1,n)==1: break
            a+=1
        u=pow(b-1,-1,n); w=(u*(b-1)-1)//n
        x,c=chain(n,b,g); assert x==1
        l=";\n   ".join(f"q0 {A}" if B is None else f"q1 {A} {B}" for A,B in c)
        o.append(f"Lemma step_{nm}_{i} : pock_step {n} {g}\n  {b}.\nProof.\n  apply (pock_check_ok _ _ _ {u} {w}\n  [{l}]).\n  - exact prime_{ {P:'field_p',N:'order_n'}.get(g,str(g)) }.\n  - vm_compute; reflexivity.\nQed.\n")
    items="; ".join(f"({g}, {pow(1,1)}*0)" for g in f)
    o.append(f"Lemma prime_{nm} : prime {n}.\nProof.\n  eapply (pocklington {n}).\n  - reflexivity.\n"+
     "  - "+ "".join(f"eapply Forall_cons; [exact (step_{nm}_{i} : pock_step _ (fst ({g}, _)) (snd ({g}, _)))|]. " for i,g in enumerate(f))+"apply Forall_nil.\n"
     "  - cbn [map fst]. repeat constructor; cbn [In]; intuition discriminate.\n  - reflexivity.\nQed.\n")
open('/verif/rocq/theories/Primes.v','w').write("\n".join(o))
