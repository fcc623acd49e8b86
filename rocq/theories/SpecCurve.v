(** * SpecCurve: the curve secp256k1, from its equation

    A point is [None], the point at infinity, or a pair of coordinates smaller than p with y^2 = x^3 + 7 modulo p.  The sum of
    two points is given by the line through them (the tangent, when they are the same point), the multiples of a point by
    repeated sums.  Nothing here comes from the model. *)
From Coq Require Import NArith.
Local Open Scope N_scope.

Definition secp_p : N := 2 ^ 256 - 2 ^ 32 - 977.
Definition congruent (a b : N) : Prop := a mod secp_p = b mod secp_p.

Definition xy_point := option (N * N).

Definition on_curve (p : xy_point) : Prop :=
  match p with None => True | Some (x, y) => x < secp_p /\ y < secp_p /\ congruent (y * y) (x * x * x + 7) end.

(** [x3], [y3]: the line of slope [l] through ([x1], [y1]) meets the curve, besides above [x1] and [x2], above [x3]; the sum is
    that point turned upside down. *)
Definition third_point (l x1 y1 x2 x3 y3 : N) : Prop :=
  x3 < secp_p /\ y3 < secp_p /\ congruent (x1 + x2 + x3) (l * l) /\ congruent (y3 + y1 + l * x3) (l * x1).

Inductive sum : xy_point -> xy_point -> xy_point -> Prop :=
| sum_left q : sum None q q
| sum_right p : sum p None p
| sum_opposite x y y' : congruent (y + y') 0 -> sum (Some (x, y)) (Some (x, y')) None
| sum_chord l x1 y1 x2 y2 x3 y3 : x1 <> x2 -> congruent (l * x2 + y1) (l * x1 + y2) -> third_point l x1 y1 x2 x3 y3 ->
    sum (Some (x1, y1)) (Some (x2, y2)) (Some (x3, y3))
| sum_tangent l x y x3 y3 : ~ congruent (y + y) 0 -> congruent (l * (2 * y)) (3 * (x * x)) -> third_point l x y x x3 y3 ->
    sum (Some (x, y)) (Some (x, y)) (Some (x3, y3)).

Inductive multiple (p : xy_point) : nat -> xy_point -> Prop :=
| multiple_0 : multiple p 0 None
| multiple_S n q r : multiple p n q -> sum p q r -> multiple p (S n) r.

(** The base point of secp256k1 (SEC 2, section 2.4.1). *)
Definition base_point : xy_point :=
  Some (0x79BE667EF9DCBBAC55A06295CE870B07029BFCDB2DCE28D959F2815B16F81798,
        0x483ADA7726A3C4655DA4FBFC0E1108A8FD17B448A68554199C47D08FFB10D4B8).

(** The order of the base point (same section). *)
Definition secp_n : N := 0xFFFFFFFFFFFFFFFFFFFFFFFFFFFFFFFEBAAEDCE6AF48A03BBFD25E8CD0364141.

(** The x coordinate, 0 for the point at infinity. *)
Definition abscissa (p : xy_point) : N := match p with None => 0 | Some (x, _) => x end.
