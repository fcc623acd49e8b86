#!/usr/bin/env python3
"""Writes FieldPrime.v: the evidence that the field of secp256k1 has a prime number of elements."""
from cert import *
p=2**256-2**32-977
q=205115282021455665897114700593932402728804164701536103180137503955397371
r=255515944373312847190720520512484175977
x,s=steps(p,7,(p-1)//2); assert x==p-1
print('''(** * FieldPrime: the field of secp256k1 has a prime number of elements

    Written by tools/gen_cert.py.  p - 1 has a large prime factor, which less one has another, which less one has three small
    ones; what [prime_by] (Primes.v) needs of each. *)
From Coq Require Import List ZArith Znumtheory Lia.
From Verif Require Import Primes.
Import ListNotations.
Local Open Scope Z_scope.

Definition p256 : Z := %d.
'''%p)
print(prime(p,{p:[q],q:[r],r:[107590001,7240687,96557]},{},"prime_p256","p256"),end="")
print("(** 7 ^ ((p - 1) / 2) = -1, step by step. *)\nDefinition seven_steps : list (Z * Z) :=\n  %s.\n"%lst(s))
print('''Lemma seven_power : power 256 4294968273 7 %d seven_steps = Some (p256 - 1).
Proof. vm_compute. reflexivity. Qed.

Lemma power_p a e steps r : power 256 4294968273 a e steps = Some r -> (p256 | a ^ Z.pos e - r).
Proof. apply power_ok; [discriminate|reflexivity]. Qed.'''%((p-1)//2))
