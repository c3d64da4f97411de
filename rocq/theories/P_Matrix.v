(** * Properties: Matrix

    Statements only; proofs are in L_PMatrix.v. *)

From Coq Require Import ZArith Reals Lra Lia Bool.
From Flocq Require Import Core BinarySingleNaN.
From Verif Require Import Outcome Arith ArithR ArithF Spec_Float M_Common Spec_Matrix.
Open Scope R_scope.
From Verif Require L_PMatrix.

(** C31.  [compose] is the matrix product (rows by columns), [transpose] swaps
    the indices, [identity] and [zero] are the unit and null matrices. *)
Theorem C31_matrix_functions : forall a b,
  is_product a b (mcompose (A := realA) a b) /\
  (forall i j, entry (mtranspose (A := realA) a) i j = entry a j i) /\
  (forall i j, entry (midentity (A := realA)) i j = kron i j) /\
  (forall i j, entry (mzero (A := realA)) i j = 0).
Proof. exact L_PMatrix.C31_matrix_functions_pf. Qed.
Print Assumptions C31_matrix_functions.

(** C31.  The algebraic laws. *)
Theorem C31_matrix_laws : forall a b c : mat3 realA,
  let compose := mcompose (A := realA) in let transpose := mtranspose (A := realA) in
  let identity := midentity (A := realA) in let zero := mzero (A := realA) in
  compose (compose a b) c = compose a (compose b c) /\
  compose identity a = a /\ compose a identity = a /\
  compose zero a = zero /\ compose a zero = zero /\
  transpose (transpose a) = a /\
  transpose (compose a b) = compose (transpose b) (transpose a).
Proof. exact L_PMatrix.C31_matrix_laws_pf. Qed.
Print Assumptions C31_matrix_laws.

(** The product of two concrete matrices, which do not commute. *)
Example C31_example :
  let v := V3 (A := realA) in let m := M3 (A := realA) in
  let a := m (v 1 2 0) (v 0 1 0) (v 0 0 1) in
  let b := m (v 1 0 0) (v 3 1 0) (v 0 0 1) in
  mcompose (A := realA) a b = m (v 7 2 0) (v 3 1 0) (v 0 0 1) /\
  mcompose (A := realA) b a = m (v 1 2 0) (v 3 7 0) (v 0 0 1).
Proof. exact L_PMatrix.C31_example_pf. Qed.

(** C32 is false: [apply] multiplies a row vector (it acts as the transpose), so
    it reverses the order of [compose]. *)
Theorem C32_apply_compose_refuted : exists (a b : mat3 realA) (x : vec3 realA),
  proper a /\ proper b /\
  mapply (A := realA) (mcompose (A := realA) a b) x <>
  mapply (A := realA) a (mapply (A := realA) b x).
Proof. exact L_PMatrix.C32_apply_compose_refuted_pf. Qed.
Print Assumptions C32_apply_compose_refuted.

(** C32, what holds: [apply] is row-vector multiplication, i.e. the column
    action of the transpose, and composes contravariantly. *)
Theorem C32_apply_row_partial : forall (a b : mat3 realA) (x : vec3 realA),
  is_row_image a x (mapply (A := realA) a x) /\
  is_column_image (mtranspose (A := realA) a) x (mapply (A := realA) a x) /\
  mapply (A := realA) (mcompose (A := realA) a b) x = mapply (A := realA) b (mapply (A := realA) a x) /\
  mapply (A := realA) (midentity (A := realA)) x = x.
Proof. exact L_PMatrix.C32_apply_row_partial_pf. Qed.
Print Assumptions C32_apply_row_partial.

(** C32, consequence: a proper rotation applied this way preserves lengths and angles. *)
Theorem C32_apply_isometry_partial : forall (m : mat3 realA) (x y : vec3 realA), proper m ->
  sprod (mapply (A := realA) m x) (mapply (A := realA) m y) = sprod x y.
Proof. exact L_PMatrix.C32_apply_isometry_partial_pf. Qed.
Print Assumptions C32_apply_isometry_partial.

(** [apply] sends the first unit vector to the first row. *)
Example C32_example : let v := V3 (A := realA) in let a := M3 (A := realA) (v 1 2 0) (v 0 1 0) (v 0 0 1) in
  mapply (A := realA) a (v 1 0 0) = v 1 2 0 /\ mapply (A := realA) a (v 0 1 0) = v 0 1 0.
Proof. exact L_PMatrix.C32_example_pf. Qed.

(** C33.  For the axes 0, 1, 2: the textbook frame rotation; proper; fixes the
    axis; additive in the angle; the transpose is the rotation by the opposite
    angle and the inverse. *)
Theorem C33_rotation : forall (ax : idx) (s t : R),
  rotation (A := realA) (axis_number ax) t = Val (rot3 ax t) /\
  proper (rot3 ax t) /\
  (forall i, entry (rot3 ax t) ax i = kron ax i /\ entry (rot3 ax t) i ax = kron i ax) /\
  mcompose (A := realA) (rot3 ax s) (rot3 ax t) = rot3 ax (s + t) /\
  mtranspose (A := realA) (rot3 ax t) = rot3 ax (- t) /\
  mcompose (A := realA) (rot3 ax t) (rot3 ax (- t)) = midentity (A := realA) /\
  rot3 ax 0 = midentity (A := realA).
Proof. exact L_PMatrix.C33_rotation_pf. Qed.
Print Assumptions C33_rotation.

(** C33.  Any other axis panics, in any arithmetic. *)
Theorem C33_rotation_bad_axis : forall (A : arith) (n : nat) (t : num A), (3 <= n)%nat ->
  rotation (A := A) n t = Panic.
Proof. exact L_PMatrix.C33_rotation_bad_axis_pf. Qed.
Print Assumptions C33_rotation_bad_axis.

(** A quarter turn about the third axis. *)
Example C33_example : rotation (A := realA) 2 (PI / 2) =
  Val (M3 (A := realA) (V3 (A := realA) 0 1 0) (V3 (A := realA) (-1) 0 0) (V3 (A := realA) 0 0 1)).
Proof. exact L_PMatrix.C33_example_pf. Qed.

(** C34.  Exact arithmetic: for non-zero vectors the angle is in [0, pi] and its
    cosine is a.b / (|a| |b|), so it is the geometric angle. *)
Theorem C34_angle_partial : forall a b, ~ zero_vec a -> ~ zero_vec b ->
  let th := vangle (A := realA) a b in
  0 <= th <= PI /\
  sprod a b = R_sqrt.sqrt (sprod a a) * R_sqrt.sqrt (sprod b b) * cos th.
Proof. exact L_PMatrix.C34_angle_partial_pf. Qed.
Print Assumptions C34_angle_partial.

(** C34.  Symmetric, invariant under positive scaling, 0 for parallel and pi for
    opposite vectors. *)
Theorem C34_angle_laws_partial : forall a b c d, ~ zero_vec a -> ~ zero_vec b -> 0 < c -> 0 < d ->
  vangle (A := realA) a b = vangle (A := realA) b a /\
  vangle (A := realA) (vscale (A := realA) a c) (vscale (A := realA) b d) = vangle (A := realA) a b /\
  vangle (A := realA) a (vscale (A := realA) a c) = 0 /\
  vangle (A := realA) a (vneg (A := realA) a) = PI.
Proof. exact L_PMatrix.C34_angle_laws_partial_pf. Qed.
Print Assumptions C34_angle_laws_partial.

(** C34 is false in binary64: for (1,1,1) and itself the argument passed to
    acos is 1 + 2^-52, so a conforming acos returns NaN. *)
Theorem C34_angle_refuted : forall lm,
  (forall x, 1 < B2R x -> is_nan (lm_acos lm x) = true) ->
  let v := V3 (A := b64A lm) (Flit 1 0) (Flit 1 0) (Flit 1 0) in
  is_nan (vangle (A := b64A lm) v v) = true.
Proof. exact L_PMatrix.C34_angle_refuted_pf. Qed.
Print Assumptions C34_angle_refuted.

(** The right angle between (1,1,0) and (1,-1,0). *)
Example C34_example :
  vangle (A := realA) (V3 (A := realA) 1 1 0) (V3 (A := realA) 1 (-1) 0) = PI / 2.
Proof. exact L_PMatrix.C34_example_pf. Qed.

(** C63.  Exact arithmetic: the vector functions are the componentwise ones, the
    scalar product and the Euclidean length. *)
Theorem C63_vector_functions : forall (a b : vec3 realA) (c : R),
  (forall i, coord (vneg (A := realA) a) i = - coord a i /\
     coord (vscale (A := realA) a c) i = c * coord a i /\
     coord (vadd (A := realA) a b) i = coord a i + coord b i /\
     coord (vsub (A := realA) a b) i = coord a i - coord b i /\
     (~ zero_vec a -> coord (vnormalize (A := realA) a) i = coord a i / R_sqrt.sqrt (sprod a a))) /\
  vdot (A := realA) a b = sprod a b /\
  vnorm (A := realA) a = R_sqrt.sqrt (sprod a a).
Proof. exact L_PMatrix.C63_vector_functions_pf. Qed.
Print Assumptions C63_vector_functions.

(** C63.  Laws of the length. *)
Theorem C63_norm_laws : forall (a b : vec3 realA) (c : R),
  0 <= vnorm (A := realA) a /\
  (vnorm (A := realA) a = 0 <-> zero_vec a) /\
  vnorm (A := realA) (vscale (A := realA) a c) = Rabs c * vnorm (A := realA) a /\
  vnorm (A := realA) (vneg (A := realA) a) = vnorm (A := realA) a /\
  vnorm (A := realA) (vadd (A := realA) a b) <= vnorm (A := realA) a + vnorm (A := realA) b /\
  Rabs (vdot (A := realA) a b) <= vnorm (A := realA) a * vnorm (A := realA) b /\
  (~ zero_vec a -> vnorm (A := realA) (vnormalize (A := realA) a) = 1 /\
     a = vscale (A := realA) (vnormalize (A := realA) a) (vnorm (A := realA) a)).
Proof. exact L_PMatrix.C63_norm_laws_pf. Qed.
Print Assumptions C63_norm_laws.

(** C63.  Binary64, bit for bit and for every input (NaN and infinities included). *)
Theorem C63_symmetry_b64 : forall lm (a b : vec3 (b64A lm)),
  vadd (A := b64A lm) a b = vadd (A := b64A lm) b a /\
  vdot (A := b64A lm) a b = vdot (A := b64A lm) b a /\
  vnorm (A := b64A lm) (vneg (A := b64A lm) a) = vnorm (A := b64A lm) a.
Proof. exact L_PMatrix.C63_symmetry_b64_pf. Qed.
Print Assumptions C63_symmetry_b64.

(** C63.  Binary64: when no component exceeds 2^500 and the length is at least
    2^-400, the length is accurate to 3 units of 2^-53 and every coordinate of the
    normalised vector to 8 of them. *)
Theorem C63_norm_accuracy_b64 : forall lm (a : vec3 (b64A lm)),
  (forall i, fin (vget (A := b64A lm) a i) = true /\ Rabs (B2R (vget (A := b64A lm) a i)) <= bpow radix2 500) ->
  let len := R_sqrt.sqrt (B2R (v0 a) ^ 2 + B2R (v1 a) ^ 2 + B2R (v2 a) ^ 2) in
  bpow radix2 (-400) <= len ->
  fin (vnorm (A := b64A lm) a) = true /\
  Rabs (B2R (vnorm (A := b64A lm) a) - len) <= 3 * bpow radix2 (-53) * len /\
  forall i, fin (vget (A := b64A lm) (vnormalize (A := b64A lm) a) i) = true /\
    Rabs (B2R (vget (A := b64A lm) (vnormalize (A := b64A lm) a) i) - B2R (vget (A := b64A lm) a i) / len)
      <= bpow radix2 (-50).
Proof. exact L_PMatrix.C63_norm_accuracy_b64_pf. Qed.
Print Assumptions C63_norm_accuracy_b64.

(** (3,4,12) has length 13, also in binary64. *)
Example C63_example :
  vnorm (A := realA) (V3 (A := realA) 3 4 12) = 13 /\
  (forall lm, B2SF (vnorm (A := b64A lm) (V3 (A := b64A lm) (FofZ 3) (FofZ 4) (FofZ 12))) = B2SF (FofZ 13)).
Proof. exact L_PMatrix.C63_example_pf. Qed.
