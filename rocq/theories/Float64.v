(** * Float64: the quotient that [write_read_ratio] returns

    Source: /repo/traffic/src/lib.rs, 309-318.

    [f64] is IEEE 754 binary64 with rounding to nearest, ties to even, which is what Rust prescribes for the
    arithmetic of [f64] and for casts of integers to it. The operations are those of the standard library's
    [SpecFloat], which is made of definitions only. *)
From Coq Require Import ZArith NArith SpecFloat.
From Verif Require Import Base Traffic.
Local Open Scope Z_scope.

(** [n as f64] for a [u64]. *)
Definition u64_as_f64 (n : N) : spec_float := binary_normalize 53 1024 (Z.of_N n) 0 false.

(** [written as f64 / read as f64]. *)
Definition f64_quotient (written read : N) : spec_float := SFdiv 53 1024 (u64_as_f64 written) (u64_as_f64 read).

(** [write_read_ratio], 309-318. *)
Definition ratio_f64 (s : stats) : option spec_float :=
  match write_read_ratio s with
  | None => None
  | Some (written, read) => Some (f64_quotient written read)
  end.
