#!/usr/bin/env python3
"""Writes GroupOrder.v: the evidence that the base point of secp256k1 has prime order, and that the curve has no point of order 2."""
from cert import *
p=2**256-2**32-977
n=115792089237316195423570985008687907852837564279074904382605163141518161494337
b=174723607534414371449
c=107361793816595537
cube,s=steps(p,-7,(p-1)//3); assert cube!=1
out=[]
out.append("(** (-7) ^ ((p - 1) / 3), step by step. *)\nDefinition cube_steps : list (Z * Z) :=\n  %s.\n"%lst(s))
G=(0x79BE667EF9DCBBAC55A06295CE870B07029BFCDB2DCE28D959F2815B16F81798,0x483ADA7726A3C4655DA4FBFC0E1108A8FD17B448A68554199C47D08FFB10D4B8)
def line(P,Q):
    if P==Q: l=3*P[0]*P[0]*pow(2*P[1],-1,p)%p; k1=(l*2*P[1]-3*P[0]*P[0])//p; assert l*2*P[1]==3*P[0]**2+k1*p
    else: l=(Q[1]-P[1])*pow(Q[0]-P[0],-1,p)%p; k1=(l*(Q[0]-P[0])-(Q[1]-P[1]))//p; assert l*(Q[0]-P[0])==Q[1]-P[1]+k1*p
    x=(l*l-P[0]-Q[0])%p; y=(l*(P[0]-x)-P[1])%p
    k2=(l*l-P[0]-Q[0]-x)//p; k3=(y+P[1]-l*(P[0]-x))//p
    assert P[0]+Q[0]+x+k2*p==l*l and y+P[1]==l*(P[0]-x)+k3*p
    return (x,y),"(Line %s)"%" ".join(num(v) for v in (l,x,y,k1,k2,k3))
d=2**256-n; acc=None; pw=G; moves=[]
for i in range(256):
    if d>>i&1:
        if acc is None: acc=pw; moves.append("First")
        else: acc,t=line(acc,pw); moves.append("Add "+t)
    pw,t=line(pw,pw); moves.append("Double "+t)
assert acc==pw and d<2**256
print('''(** * GroupOrder: the base point of secp256k1 has prime order, and no point of the curve has order 2

    Written by tools/gen_order.py.  [prime_by] (Primes.v) needs three prime factors of n - 1; two of them have two small ones in
    turn.  The points 2^i G, and the sums of some of them, are given with the slopes of their lines. *)
From Coq Require Import List ZArith Znumtheory Lia.
From Verif Require Import Primes FieldPrime.
Import ListNotations.
Local Open Scope Z_scope.

Definition n256 : Z := %d.
'''%n)
print(prime(n,{n:[b,c,631]},{},"prime_n256","n256"),end="")
print("\n".join(out))
print('''Definition cube : Z := %d.
Lemma cube_power : power 256 4294968273 (-7) %d cube_steps = Some cube.
Proof. vm_compute. reflexivity. Qed.

(** ** Sums of points with their slopes *)

(** The line of slope [l_slope] through two points, its third point turned upside down, and how often p is left out in each of
    the three equations. *)
Record line := Line { l_slope : Z; l_x : Z; l_y : Z; l_k1 : Z; l_k2 : Z; l_k3 : Z }.

Definition in_field (x : Z) : bool := (0 <=? x) && (x <? p256).
Definition out_of (k : Z) : Z := left_out 256 4294968273 k.
Definition third_ok (p1 : Z * Z) (x2 : Z) (l : line) : bool :=
  in_field (l_slope l) && in_field (l_x l) && in_field (l_y l) &&
  (fst p1 + x2 + l_x l + out_of (l_k2 l) =? Z.square (l_slope l)) &&
  (l_y l + snd p1 =? l_slope l * (fst p1 - l_x l) + out_of (l_k3 l)).
Definition double_ok (p1 : Z * Z) (l : line) : bool :=
  negb (snd p1 + snd p1 =? 0) && negb (snd p1 + snd p1 =? p256) &&
  (l_slope l * (2 * snd p1) =? 3 * Z.square (fst p1) + out_of (l_k1 l)) && third_ok p1 (fst p1) l.
Definition add_ok (p1 p2 : Z * Z) (l : line) : bool :=
  negb (fst p1 =? fst p2) &&
  (l_slope l * (fst p2 - fst p1) =? snd p2 - snd p1 + out_of (l_k1 l)) && third_ok p1 (fst p2) l.

(** A sum of powers of two times the base point, and the power at hand: both with how many times it is. *)
Inductive move := First | Add (l : line) | Double (l : line).
Record climb := Climb { c_sum : option (Z * Z); c_power : Z * Z; c_n : N; c_e : N }.

Definition climb_step (m : move) (c : climb) : option climb :=
  match m, c_sum c with
  | First, None => Some (Climb (Some (c_power c)) (c_power c) (c_n c + c_e c) (c_e c))
  | Add l, Some q => if add_ok q (c_power c) l then Some (Climb (Some (l_x l, l_y l)) (c_power c) (c_n c + c_e c) (c_e c)) else None
  | Double l, _ => if double_ok (c_power c) l then Some (Climb (c_sum c) (l_x l, l_y l) (c_n c) (c_e c + c_e c)) else None
  | _, _ => None
  end.

Fixpoint climb_all (ms : list move) (c : climb) : option climb :=
  match ms with
  | [] => Some c
  | m :: ms => match climb_step m c with Some c => climb_all ms c | None => None end
  end.

Definition base : Z * Z := (%d, %d).
Definition top : Z * Z := (%d, %d).
'''%(cube,(p-1)//3,G[0],G[1],pw[0],pw[1]))
print("Definition moves : list move :=\n  [%s].\n"%(";\n  ".join(moves)))
print('''(** 2^256 G is (2^256 - n) G. *)
Lemma climbed : climb_all moves (Climb None base 0 1) = Some (Climb (Some top) top (2 ^ 256 - Z.to_N n256) (2 ^ 256)).
Proof. vm_compute. reflexivity. Qed.''')
