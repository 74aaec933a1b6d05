(** * PropsRing: the ring-level properties (C01-C05, C08, C09, C17, C20)

    Every theorem is about all commutative rings ([RingLaws T]): exact
    integers ([Z_ring]), wrapping machine integers ([wint_ring]), the reals. *)

From Coq Require Import List Arith Lia Ring ZArith.
From Verif Require Import Base Scalar Vec Mat2 Mat3 Mat4 Mat5 Mat6 MatLoops MatOps
  RingDet Spec Entries DetEntries InstZ.
From Verif Require Import ProofsRing.
(** Concrete cases meeting the hypotheses: the Examples of ProofsRing.v and of Cases.v. *)
Open Scope sc_scope.

Section WithRing.
Context {T : Type} {nT : Num T} {sT : Signed T}.
Variable RT : RingLaws T.

(** ** C01 Matrix product *)
Theorem C01_mul_entry : forall d (A B : mat T (dimn d)) i j, i < dimn d -> j < dimn d ->
  mget (d_mul d A B) i j = Ok (sumn (dimn d) (fun k => mfun A i k * mfun B k j)).
Proof. exact (c01_mul_entry RT). Qed.
Print Assumptions C01_mul_entry.

Theorem C01_mul_assoc : forall d (A B C : mat T (dimn d)),
  d_mul d (d_mul d A B) C = d_mul d A (d_mul d B C).
Proof. exact (c01_mul_assoc RT). Qed.
Print Assumptions C01_mul_assoc.

Theorem C01_mul_add_l : forall d (A B C : mat T (dimn d)),
  d_mul d A (d_add d B C) = d_add d (d_mul d A B) (d_mul d A C).
Proof. exact (c01_mul_add_l RT). Qed.
Print Assumptions C01_mul_add_l.

Theorem C01_mul_add_r : forall d (A B C : mat T (dimn d)),
  d_mul d (d_add d A B) C = d_add d (d_mul d A C) (d_mul d B C).
Proof. exact (c01_mul_add_r RT). Qed.
Print Assumptions C01_mul_add_r.

Theorem C01_mul_sub_l : forall d (A B C : mat T (dimn d)),
  d_mul d A (d_sub d B C) = d_sub d (d_mul d A B) (d_mul d A C).
Proof. exact (c01_mul_sub_l RT). Qed.
Print Assumptions C01_mul_sub_l.

Theorem C01_mul_sub_r : forall d (A B C : mat T (dimn d)),
  d_mul d (d_sub d A B) C = d_sub d (d_mul d A C) (d_mul d B C).
Proof. exact (c01_mul_sub_r RT). Qed.
Print Assumptions C01_mul_sub_r.

Theorem C01_identity : forall d (A : mat T (dimn d)),
  d_mul d (d_identity d) A = A /\ d_mul d A (d_identity d) = A.
Proof. exact (c01_identity RT). Qed.
Print Assumptions C01_identity.

Theorem C01_zeros : forall d (A : mat T (dimn d)),
  d_mul d (d_zeros d) A = d_zeros d /\ d_mul d A (d_zeros d) = d_zeros d.
Proof. exact (c01_zeros RT). Qed.
Print Assumptions C01_zeros.

(** ** C02 Matrix times vector *)
Theorem C02_mul_v_entry : forall d (A : mat T (dimn d)) v i, i < dimn d ->
  aget (d_mul_v d A v) i = Ok (sumn (dimn d) (fun k => mfun A i k * vfun v k)).
Proof. exact (c02_mul_v_entry RT). Qed.
Print Assumptions C02_mul_v_entry.

Theorem C02_mul_v_mul : forall d (A B : mat T (dimn d)) v,
  d_mul_v d (d_mul d A B) v = d_mul_v d A (d_mul_v d B v).
Proof. exact (c02_mul_v_mul RT). Qed.
Print Assumptions C02_mul_v_mul.

Theorem C02_mul_v_add : forall d (A : mat T (dimn d)) u v,
  d_mul_v d A (d_vadd d u v) = d_vadd d (d_mul_v d A u) (d_mul_v d A v).
Proof. exact (c02_mul_v_add RT). Qed.
Print Assumptions C02_mul_v_add.

Theorem C02_mul_v_scale : forall d (A : mat T (dimn d)) v s,
  d_mul_v d A (d_vscale d v s) = d_vscale d (d_mul_v d A v) s.
Proof. exact (c02_mul_v_scale RT). Qed.
Print Assumptions C02_mul_v_scale.

Theorem C02_mul_v_identity : forall d (v : arr T (dimn d)), d_mul_v d (d_identity d) v = v.
Proof. exact (c02_mul_v_identity RT). Qed.
Print Assumptions C02_mul_v_identity.

(** ** C03 Vector times matrix (sizes 2, 4, 5, 6; size 3 is refuted below) *)
Theorem C03_row_product_partial : forall d (v : arr T (dimn d)) M j, d <> D3 -> j < dimn d ->
  aget (d_vmul_m d v M) j = Ok (sumn (dimn d) (fun k => vfun v k * mfun M k j)).
Proof. exact (c03_row_product_partial RT). Qed.
Print Assumptions C03_row_product_partial.

Theorem C03_transpose_partial : forall d (v : arr T (dimn d)) M, d <> D3 ->
  d_vmul_m d v M = d_mul_v d (d_transpose d M) v.
Proof. exact (c03_transpose_partial RT). Qed.
Print Assumptions C03_transpose_partial.

Theorem C03_mul_partial : forall d (v : arr T (dimn d)) A B, d <> D3 ->
  d_vmul_m d v (d_mul d A B) = d_vmul_m d (d_vmul_m d v A) B.
Proof. exact (c03_mul_partial RT). Qed.
Print Assumptions C03_mul_partial.

(** What size 3 computes instead: the column product [M * v]. *)
Theorem C03_size3_column_product : forall (v : V3 T) M, v3_mul_m v M = m33_mul_v M v.
Proof. exact (c03_size3_column_product RT). Qed.
Print Assumptions C03_size3_column_product.

(** ** C04 Determinant *)
Theorem C04_det_laplace : forall d (A : mat T (dimn d)), d_det d A = ldet (dimn d) (mfun A).
Proof. exact (c04_det_laplace RT). Qed.
Print Assumptions C04_det_laplace.

(** expansion along any row, with the minors *)
Theorem C04_det_expand_row : forall d (A : mat T (dimn d)) i, i < dimn d ->
  d_det d A = sumn (dimn d) (fun j =>
    mfun A i j * (sgn (i + j) * ldet (dimn d - 1) (minor i j (mfun A)))).
Proof. exact (c04_det_expand_row RT). Qed.
Print Assumptions C04_det_expand_row.

(** ** C05 Determinant laws *)
Theorem C05_det_mul : forall d (A B : mat T (dimn d)),
  d_det d (d_mul d A B) = d_det d A * d_det d B.
Proof. exact (c05_det_mul RT). Qed.
Print Assumptions C05_det_mul.

Theorem C05_det_transpose : forall d (A : mat T (dimn d)),
  d_det d (d_transpose d A) = d_det d A.
Proof. exact (c05_det_transpose RT). Qed.
Print Assumptions C05_det_transpose.

Theorem C05_det_identity : forall d, d_det d (d_identity d) = one.
Proof. exact (c05_det_identity RT). Qed.
Print Assumptions C05_det_identity.

Theorem C05_det_scale : forall d (A : mat T (dimn d)) s,
  d_det d (d_scale d A s) = prodn (dimn d) (fun _ => s) * d_det d A.
Proof. exact (c05_det_scale RT). Qed.
Print Assumptions C05_det_scale.

Theorem C05_det_swap_rows : forall d (A B : mat T (dimn d)) r s,
  r < dimn d -> s < dimn d -> r <> s ->
  (forall j, j < dimn d -> mfun B r j = mfun A s j /\ mfun B s j = mfun A r j) ->
  (forall i j, i < dimn d -> j < dimn d -> i <> r -> i <> s -> mfun B i j = mfun A i j) ->
  d_det d B = - d_det d A.
Proof. exact (c05_det_swap_rows RT). Qed.
Print Assumptions C05_det_swap_rows.

(** ** C08 Transpose (the entry law and the involution are below, for any type) *)
Theorem C08_transpose_add : forall d (A B : mat T (dimn d)),
  d_transpose d (d_add d A B) = d_add d (d_transpose d A) (d_transpose d B).
Proof. exact c08_transpose_add. Qed.
Print Assumptions C08_transpose_add.

Theorem C08_transpose_mul : forall d (A B : mat T (dimn d)),
  d_transpose d (d_mul d A B) = d_mul d (d_transpose d B) (d_transpose d A).
Proof. exact (c08_transpose_mul RT). Qed.
Print Assumptions C08_transpose_mul.

(** ** C09 Trace (the norm laws are in ProofsNorm) *)
Theorem C09_trace_diagonal : forall d (A : mat T (dimn d)),
  d_trace d A = sumn (dimn d) (fun i => mfun A i i).
Proof. exact (c09_trace_diagonal RT). Qed.
Print Assumptions C09_trace_diagonal.

Theorem C09_trace_add : forall d (A B : mat T (dimn d)),
  d_trace d (d_add d A B) = d_trace d A + d_trace d B.
Proof. exact (c09_trace_add RT). Qed.
Print Assumptions C09_trace_add.

Theorem C09_trace_mul_comm : forall d (A B : mat T (dimn d)),
  d_trace d (d_mul d A B) = d_trace d (d_mul d B A).
Proof. exact (c09_trace_mul_comm RT). Qed.
Print Assumptions C09_trace_mul_comm.

(** ** C17 Module laws *)
Theorem C17_add_assoc : forall d (A B C : mat T (dimn d)),
  d_add d (d_add d A B) C = d_add d A (d_add d B C).
Proof. exact (c17_add_assoc RT). Qed.
Print Assumptions C17_add_assoc.

Theorem C17_add_comm : forall d (A B : mat T (dimn d)), d_add d A B = d_add d B A.
Proof. exact (c17_add_comm RT). Qed.
Print Assumptions C17_add_comm.

Theorem C17_add_zeros : forall d (A : mat T (dimn d)), d_add d A (d_zeros d) = A.
Proof. exact (c17_add_zeros RT). Qed.
Print Assumptions C17_add_zeros.

Theorem C17_add_neg : forall d (A : mat T (dimn d)), d_add d A (d_neg d A) = d_zeros d.
Proof. exact (c17_add_neg RT). Qed.
Print Assumptions C17_add_neg.

Theorem C17_sub_neg : forall d (A B : mat T (dimn d)), d_sub d A B = d_add d A (d_neg d B).
Proof. exact (c17_sub_neg RT). Qed.
Print Assumptions C17_sub_neg.

Theorem C17_scale_add : forall d (A B : mat T (dimn d)) s t,
  d_scale d (d_add d A B) s = d_add d (d_scale d A s) (d_scale d B s)
  /\ d_scale d A (s + t) = d_add d (d_scale d A s) (d_scale d A t)
  /\ d_scale d (d_scale d A s) t = d_scale d A (s * t)
  /\ d_scale d A one = A /\ d_scale d A zero = d_zeros d.
Proof. exact (c17_scale_add RT). Qed.
Print Assumptions C17_scale_add.

Theorem C17_vadd_assoc : forall d (u v w : arr T (dimn d)),
  d_vadd d (d_vadd d u v) w = d_vadd d u (d_vadd d v w).
Proof. exact (c17_vadd_assoc RT). Qed.
Print Assumptions C17_vadd_assoc.

Theorem C17_vadd_comm : forall d (v w : arr T (dimn d)), d_vadd d v w = d_vadd d w v.
Proof. exact (c17_vadd_comm RT). Qed.
Print Assumptions C17_vadd_comm.

Theorem C17_vadd_zeros : forall d (v : arr T (dimn d)), d_vadd d v (d_vzeros d) = v.
Proof. exact (c17_vadd_zeros RT). Qed.
Print Assumptions C17_vadd_zeros.

Theorem C17_vadd_neg : forall d (v : arr T (dimn d)), d_vadd d v (d_vneg d v) = d_vzeros d.
Proof. exact (c17_vadd_neg RT). Qed.
Print Assumptions C17_vadd_neg.

Theorem C17_vsub_neg : forall d (v w : arr T (dimn d)), d_vsub d v w = d_vadd d v (d_vneg d w).
Proof. exact (c17_vsub_neg RT). Qed.
Print Assumptions C17_vsub_neg.

Theorem C17_vscale_add : forall d (v w : arr T (dimn d)) s t,
  d_vscale d (d_vadd d v w) s = d_vadd d (d_vscale d v s) (d_vscale d w s)
  /\ d_vscale d v (s + t) = d_vadd d (d_vscale d v s) (d_vscale d v t)
  /\ d_vscale d (d_vscale d v s) t = d_vscale d v (s * t)
  /\ d_vscale d v one = v /\ d_vscale d v zero = d_vzeros d.
Proof. exact (c17_vscale_add RT). Qed.
Print Assumptions C17_vscale_add.

Theorem C17_vlscale : forall d (v : arr T (dimn d)) s, d_vlscale d s v = d_vscale d v s.
Proof. exact (c17_vlscale RT). Qed.
Print Assumptions C17_vlscale.

Theorem C17_mlscale : forall s (A : M22 T) (B : M33 T),
  m22_lscale s A = m22_scale A s /\ m33_lscale s B = m33_scale B s.
Proof. exact (c17_mlscale RT). Qed.
Print Assumptions C17_mlscale.

(** [dot] is a symmetric bilinear form *)
Theorem C18_dot_bilinear : forall d (u v w : arr T (dimn d)) s,
  d_vdot d u v = sumn (dimn d) (fun i => vfun u i * vfun v i)
  /\ d_vdot d u v = d_vdot d v u
  /\ d_vdot d (d_vadd d u v) w = d_vdot d u w + d_vdot d v w
  /\ d_vdot d (d_vscale d u s) w = d_vdot d u w * s.
Proof. exact (c18_dot_bilinear RT). Qed.
Print Assumptions C18_dot_bilinear.

Theorem C20_cross_bilinear : forall (u v w : V3 T) s,
  v3_cross (v3_add u v) w = v3_add (v3_cross u w) (v3_cross v w)
  /\ v3_cross u (v3_add v w) = v3_add (v3_cross u v) (v3_cross u w)
  /\ v3_cross (v3_scale u s) v = v3_scale (v3_cross u v) s
  /\ v3_cross u (v3_scale v s) = v3_scale (v3_cross u v) s.
Proof. exact (c20_cross_bilinear RT). Qed.
Print Assumptions C20_cross_bilinear.

Theorem C20_cross_anticomm : forall (u v : V3 T),
  v3_cross u v = v3_neg (v3_cross v u) /\ v3_cross u u = v3_zeros.
Proof. exact (c20_cross_anticomm RT). Qed.
Print Assumptions C20_cross_anticomm.

Theorem C20_cross_orthogonal : forall (u v : V3 T),
  v3_dot u (v3_cross u v) = zero /\ v3_dot v (v3_cross u v) = zero.
Proof. exact (c20_cross_orthogonal RT). Qed.
Print Assumptions C20_cross_orthogonal.

Theorem C20_jacobi : forall (u v w : V3 T),
  v3_add (v3_add (v3_cross u (v3_cross v w)) (v3_cross v (v3_cross w u)))
         (v3_cross w (v3_cross u v)) = v3_zeros.
Proof. exact (c20_jacobi RT). Qed.
Print Assumptions C20_jacobi.

Theorem C20_lagrange : forall (a b c d : V3 T),
  v3_dot (v3_cross a b) (v3_cross c d)
  = v3_dot a c * v3_dot b d - v3_dot a d * v3_dot b c
  /\ v3_cross a (v3_cross b c) = v3_sub (v3_scale b (v3_dot a c)) (v3_scale c (v3_dot a b)).
Proof. exact (c20_lagrange RT). Qed.
Print Assumptions C20_lagrange.

Theorem C20_cross_norm : forall (v w : V3 T),
  v3_dot (v3_cross v w) (v3_cross v w)
  = v3_dot v v * v3_dot w w - v3_dot v w * v3_dot v w.
Proof. exact (c20_cross_norm RT). Qed.
Print Assumptions C20_cross_norm.

(** the triple product is the determinant of the matrix with rows [u], [v], [w] *)
Theorem C20_triple_det : forall (u v w : V3 T),
  v3_dot u (v3_cross v w) = ldet 3 (mfun ([|u; v; w|] : M33 T))
  /\ exists M, m33_new_from_vecs [|u; v; w|] = Ok M /\ v3_dot u (v3_cross v w) = m33_det M.
Proof. exact (c20_triple_det RT). Qed.
Print Assumptions C20_triple_det.

(** right-handedness: the axes *)
Theorem C20_axes : v3_cross v3_x_axis v3_y_axis = (v3_z_axis : V3 T)
  /\ v3_cross v3_y_axis v3_z_axis = (v3_x_axis : V3 T)
  /\ v3_cross v3_z_axis v3_x_axis = (v3_y_axis : V3 T).
Proof. exact (c20_axes RT). Qed.
Print Assumptions C20_axes.

End WithRing.

(** ** Laws that hold for every element type, ring or not *)
Theorem C08_transpose_entry : forall U d (A : mat U (dimn d)) i j,
  i < dimn d -> j < dimn d -> mget (d_transpose d A) i j = mget A j i.
Proof. exact c08_transpose_entry. Qed.
Print Assumptions C08_transpose_entry.

Theorem C08_transpose_involutive : forall U d (A : mat U (dimn d)),
  d_transpose d (d_transpose d A) = A.
Proof. exact c08_transpose_involutive. Qed.
Print Assumptions C08_transpose_involutive.

Theorem C17_assign_ops : forall T (nT : Num T) d (A B : mat T (dimn d)) (v w : arr T (dimn d)),
  d_add_assign d A B = d_add d A B /\ d_sub_assign d A B = d_sub d A B
  /\ d_vadd_assign d v w = d_vadd d v w /\ d_vsub_assign d v w = d_vsub d v w.
Proof. exact c17_assign_ops. Qed.
Print Assumptions C17_assign_ops.

(** ** C03 is false for size 3 *)
Theorem C03_row_product_refuted : exists (v : V3 Z) (M : M33 Z) j,
  j < 3 /\ aget (v3_mul_m v M) j <> Ok (sumn 3 (fun k => vfun v k * mfun M k j)).
Proof. exact c03_row_product_refuted. Qed.
Print Assumptions C03_row_product_refuted.

Theorem C03_mul_refuted : exists (v : V3 Z) (A B : M33 Z),
  v3_mul_m v (m33_mul A B) <> v3_mul_m (v3_mul_m v A) B.
Proof. exact c03_mul_refuted. Qed.
Print Assumptions C03_mul_refuted.
