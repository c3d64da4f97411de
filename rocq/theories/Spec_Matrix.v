(** * What is meant by a rotation matrix, independently of the model's functions *)

From Coq Require Import Reals.
From Verif Require Import Arith ArithR M_Common.
Open Scope R_scope.

(** Only the record type [mat3] and its accessor [mget] (row, column) are used. *)
Definition entry (m : mat3 realA) (i j : idx) : R := mget (A := realA) m i j.
Definition coord (v : vec3 realA) (i : idx) : R := vget (A := realA) v i.

Definition kron (i j : idx) : R :=
  match i, j with I0, I0 | I1, I1 | I2, I2 => 1 | _, _ => 0 end.

(** [a] times [b] is [c]: rows of [a] by columns of [b]. *)
Definition is_product (a b c : mat3 realA) : Prop :=
  forall i j, entry c i j = entry a i I0 * entry b I0 j + entry a i I1 * entry b I1 j + entry a i I2 * entry b I2 j.

(** The same as a function, and the unit matrix. *)
Definition mul3 (a b : mat3 realA) : mat3 realA :=
  let e i j := entry a i I0 * entry b I0 j + entry a i I1 * entry b I1 j + entry a i I2 * entry b I2 j in
  M3 (A := realA) (V3 (A := realA) (e I0 I0) (e I0 I1) (e I0 I2))
                  (V3 (A := realA) (e I1 I0) (e I1 I1) (e I1 I2))
                  (V3 (A := realA) (e I2 I0) (e I2 I1) (e I2 I2)).
Definition unit3 : mat3 realA :=
  M3 (A := realA) (V3 (A := realA) 1 0 0) (V3 (A := realA) 0 1 0) (V3 (A := realA) 0 0 1).

Definition det (m : mat3 realA) : R :=
  let e := entry m in
  e I0 I0 * (e I1 I1 * e I2 I2 - e I1 I2 * e I2 I1) -
  e I0 I1 * (e I1 I0 * e I2 I2 - e I1 I2 * e I2 I0) +
  e I0 I2 * (e I1 I0 * e I2 I1 - e I1 I1 * e I2 I0).

(** Proper rotation: orthonormal rows, determinant 1. *)
Definition proper (m : mat3 realA) : Prop :=
  (forall i j, entry m i I0 * entry m j I0 + entry m i I1 * entry m j I1 + entry m i I2 * entry m j I2 = kron i j) /\
  det m = 1.

(** Multiplication of a column vector, (m x)_i = sum_j m_ij x_j, ... *)
Definition is_column_image (m : mat3 realA) (x y : vec3 realA) : Prop :=
  forall i, coord y i = entry m i I0 * coord x I0 + entry m i I1 * coord x I1 + entry m i I2 * coord x I2.
(** ... and of a row vector, (x m)_j = sum_i x_i m_ij. *)
Definition is_row_image (m : mat3 realA) (x y : vec3 realA) : Prop :=
  forall j, coord y j = coord x I0 * entry m I0 j + coord x I1 * entry m I1 j + coord x I2 * entry m I2 j.

Definition sprod (a b : vec3 realA) : R :=
  coord a I0 * coord b I0 + coord a I1 * coord b I1 + coord a I2 * coord b I2.
Definition zero_vec (a : vec3 realA) : Prop := forall i, coord a i = 0.

(** The textbook rotations of the coordinate frame by [t] about each axis. *)
Definition rot3 (ax : idx) (t : R) : mat3 realA :=
  match ax with
  | I0 => M3 (A := realA) (V3 (A := realA) 1 0 0) (V3 (A := realA) 0 (cos t) (sin t)) (V3 (A := realA) 0 (- sin t) (cos t))
  | I1 => M3 (A := realA) (V3 (A := realA) (cos t) 0 (- sin t)) (V3 (A := realA) 0 1 0) (V3 (A := realA) (sin t) 0 (cos t))
  | I2 => M3 (A := realA) (V3 (A := realA) (cos t) (sin t) 0) (V3 (A := realA) (- sin t) (cos t) 0) (V3 (A := realA) 0 0 1)
  end.

Definition axis_number (ax : idx) : nat := match ax with I0 => 0 | I1 => 1 | I2 => 2 end.
