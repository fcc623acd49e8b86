#!/usr/bin/env python3
"""Writes PolyPrime.v: the evidence that 2^130 - 5, the modulus of Poly1305, is prime."""
from cert import *
p=2**130-5
q=(p-1)//1517314646
r=(q-1)//222890620702
print('''(** * PolyPrime: 2^130 - 5 is prime

    Written by tools/gen_poly.py.  The factors are those of D. J. Bernstein, The Poly1305-AES message-authentication code, section 3. *)
From Coq Require Import List ZArith Znumtheory Lia.
From Verif Require Import Primes.
Import ListNotations.
Local Open Scope Z_scope.

Definition p130 : Z := %d.
'''%p)
print(prime(p,{p:[q],q:[r],r:[221101,37003]},{},"prime_p130","p130"),end="")
