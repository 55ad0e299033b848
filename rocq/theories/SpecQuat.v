(** * Specification: what the decoded quaternions are close to

    [f32_scaled] is the value of a number times [2 ^ 149]; one is [2 ^ 149], and
    the product of two values is their value times [2 ^ 298]. *)

From Coq Require Import ZArith List.
From Verif Require Import Base F32 NetTypes Wire SpecFacts.
Open Scope Z_scope.

(** what is on the wire: the index of the component left out, and the others *)
Definition w_quad : wire (Z * Z * Z * Z) :=
  w_bind (w_uint 2) (fun k => w_bind (w_uint 18) (fun a => w_bind (w_uint 18) (fun b => w_bind (w_uint 18) (fun c =>
  w_ret (k, a, b, c))))).
Definition w_triple : wire (Z * Z * Z) :=
  w_bind (w_uint 16) (fun a => w_bind (w_uint 16) (fun b => w_bind (w_uint 16) (fun c => w_ret (a, b, c)))).

(** The integers from [0] to [262143] stand for equally spaced values from
    [- 1 / sqrt 2] to [1 / sqrt 2] (which is 0.70710678...); the number is at most
    [2 ^ -22] off. *)
Definition part_near (d : Z) (x : f32) : Prop :=
  exists v, f32_scaled x = Some v /\
    Z.abs (v * (262143 * 10 ^ 8) - (2 * d - 262143) * 70710678 * 2 ^ 149) <= 2 ^ 127 * (262143 * 10 ^ 8).

(** The integers from [1] to [65535] stand for equally spaced values from [-1] to
    [1]; at most [2 ^ -23] off. *)
Definition old_near (d : Z) (x : f32) : Prop :=
  exists v, f32_scaled x = Some v /\ Z.abs (v * 32767 - (d - 32768) * 2 ^ 149) <= 2 ^ 126 * 32767.

(** The component left out makes the length one, up to [2 ^ -22] in the sum of the
    squares.  It is not negative.  It is a number when the squares of the others
    are at most [1 - 2 ^ -23], and none when they are more than [1 + 2 ^ -23]. *)
Definition completes (x y z e : f32) : Prop :=
  forall a b c, f32_scaled x = Some a -> f32_scaled y = Some b -> f32_scaled z = Some c ->
    let s := a * a + b * b + c * c in
    (s <= 2 ^ 298 - 2 ^ 275 -> f32_scaled e <> None) /\
    (2 ^ 298 + 2 ^ 275 < s -> f32_scaled e = None) /\
    (forall d, f32_scaled e = Some d -> 0 <= d /\ Z.abs (s + d * d - 2 ^ 298) <= 2 ^ 276).

(** the four components; [k] is the index of the one left out *)
Definition quaternion_near (k a b c : Z) (q : quaternion) : Prop :=
  exists x y z e, part_near a x /\ part_near b y /\ part_near c z /\ completes x y z e /\
    q = match k with
        | 0 => mkQuat e x y z
        | 1 => mkQuat x e y z
        | 2 => mkQuat x y e z
        | _ => mkQuat x y z e
        end.

Definition unit_length (q : quaternion) : Prop :=
  exists x y z w, f32_scaled (q_x q) = Some x /\ f32_scaled (q_y q) = Some y /\ f32_scaled (q_z q) = Some z /\
    f32_scaled (q_w q) = Some w /\ Z.abs (x * x + y * y + z * z + w * w - 2 ^ 298) <= 2 ^ 276.
