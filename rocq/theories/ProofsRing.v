(** * ProofsRing: the ring-level properties (C01-C05, C08, C09, C17, C20)

    Every theorem is about all commutative rings ([RingLaws T]): exact
    integers ([Z_ring]), wrapping machine integers ([wint_ring]), the reals. *)

From Coq Require Import List Arith Lia Ring ZArith.
From Verif Require Import Base Scalar Vec Mat2 Mat3 Mat4 Mat5 Mat6 MatLoops MatOps
  RingDet Spec Entries DetEntries InstZ.
Open Scope sc_scope.

Section WithRing.
Context {T : Type} {nT : Num T} {sT : Signed T}.
Variable RT : RingLaws T.
Let RT' : ring_theory zero one add mul sub neg (@eq T) := RT.
Add Ring TheRing : RT'.

Ltac by_entries :=
  intros; apply mfun_ext; intros ? ? ? ?;
  repeat first [ rewrite d_mul_entry by assumption | rewrite d_add_entry by assumption
    | rewrite d_sub_entry by assumption | rewrite d_neg_entry by assumption
    | rewrite d_scale_entry by assumption | rewrite d_zeros_entry by assumption
    | rewrite d_identity_entry by assumption | rewrite d_transpose_entry by assumption ].
Ltac by_ventries :=
  intros; apply vfun_ext; intros ? ?;
  repeat first [ rewrite d_mul_v_entry by assumption | rewrite d_vadd_entry by assumption
    | rewrite d_vsub_entry by assumption | rewrite d_vneg_entry by assumption
    | rewrite d_vscale_entry by assumption | rewrite d_vzeros_entry by assumption ].

(** ** C01 Matrix product *)

Lemma c01_mul_entry : forall d (A B : mat T (dimn d)) i j, i < dimn d -> j < dimn d ->
  mget (d_mul d A B) i j = Ok (sumn (dimn d) (fun k => mfun A i k * mfun B k j)).
Proof. intros. rewrite mfun_mget by auto. rewrite d_mul_entry by auto. reflexivity. Qed.

Lemma c01_mul_assoc : forall d (A B C : mat T (dimn d)),
  d_mul d (d_mul d A B) C = d_mul d A (d_mul d B C).
Proof.
  by_entries. etransitivity; [ |etransitivity; [apply (mmul_assoc RT (dimn d) (mfun A) (mfun B) (mfun C)) | ]];
  apply mmul_ext; intros; try reflexivity; rewrite d_mul_entry by assumption; reflexivity.
Qed.

Lemma c01_mul_add_l : forall d (A B C : mat T (dimn d)),
  d_mul d A (d_add d B C) = d_add d (d_mul d A B) (d_mul d A C).
Proof.
  by_entries. unfold mmul. rewrite <- sumn_add by assumption. apply sumn_ext; intros.
  rewrite d_add_entry by assumption. ring.
Qed.

Lemma c01_mul_add_r : forall d (A B C : mat T (dimn d)),
  d_mul d (d_add d A B) C = d_add d (d_mul d A C) (d_mul d B C).
Proof.
  by_entries. unfold mmul. rewrite <- sumn_add by assumption. apply sumn_ext; intros.
  rewrite d_add_entry by assumption. ring.
Qed.

Lemma c01_mul_sub_l : forall d (A B C : mat T (dimn d)),
  d_mul d A (d_sub d B C) = d_sub d (d_mul d A B) (d_mul d A C).
Proof.
  by_entries. unfold mmul. rewrite <- sumn_sub by assumption. apply sumn_ext; intros.
  rewrite d_sub_entry by assumption. ring.
Qed.

Lemma c01_mul_sub_r : forall d (A B C : mat T (dimn d)),
  d_mul d (d_sub d A B) C = d_sub d (d_mul d A C) (d_mul d B C).
Proof.
  by_entries. unfold mmul. rewrite <- sumn_sub by assumption. apply sumn_ext; intros.
  rewrite d_sub_entry by assumption. ring.
Qed.

Lemma c01_identity : forall d (A : mat T (dimn d)),
  d_mul d (d_identity d) A = A /\ d_mul d A (d_identity d) = A.
Proof.
  split; by_entries.
  - erewrite mmul_ext; [apply (mmul_id_l RT); assumption | | reflexivity].
    intros. apply d_identity_entry; assumption.
  - erewrite mmul_ext; [apply (mmul_id_r RT); assumption | reflexivity | ].
    intros. apply d_identity_entry; assumption.
Qed.

Lemma c01_zeros : forall d (A : mat T (dimn d)),
  d_mul d (d_zeros d) A = d_zeros d /\ d_mul d A (d_zeros d) = d_zeros d.
Proof.
  split; by_entries; unfold mmul; apply (sumn_zero RT); intros;
    rewrite d_zeros_entry by assumption; ring.
Qed.

(** ** C02 Matrix times vector *)

Lemma c02_mul_v_entry : forall d (A : mat T (dimn d)) v i, i < dimn d ->
  aget (d_mul_v d A v) i = Ok (sumn (dimn d) (fun k => mfun A i k * vfun v k)).
Proof. intros. rewrite vfun_aget by auto. rewrite d_mul_v_entry by auto. reflexivity. Qed.

Lemma c02_mul_v_mul : forall d (A B : mat T (dimn d)) v,
  d_mul_v d (d_mul d A B) v = d_mul_v d A (d_mul_v d B v).
Proof.
  by_ventries.
  transitivity (sumn (dimn d) (fun k => sumn (dimn d) (fun l => mfun A i l * mfun B l k * vfun v k))).
  - apply sumn_ext; intros. rewrite d_mul_entry by assumption. unfold mmul.
    rewrite <- sumn_scal_r by assumption. reflexivity.
  - rewrite sumn_swap by assumption. apply sumn_ext; intros.
    rewrite d_mul_v_entry by assumption. rewrite <- sumn_scal by assumption.
    apply sumn_ext; intros. ring.
Qed.

Lemma c02_mul_v_add : forall d (A : mat T (dimn d)) u v,
  d_mul_v d A (d_vadd d u v) = d_vadd d (d_mul_v d A u) (d_mul_v d A v).
Proof.
  by_ventries. rewrite <- sumn_add by assumption. apply sumn_ext; intros.
  rewrite d_vadd_entry by assumption. ring.
Qed.

Lemma c02_mul_v_scale : forall d (A : mat T (dimn d)) v s,
  d_mul_v d A (d_vscale d v s) = d_vscale d (d_mul_v d A v) s.
Proof.
  by_ventries. rewrite <- sumn_scal_r by assumption. apply sumn_ext; intros.
  rewrite d_vscale_entry by assumption. ring.
Qed.

Lemma c02_mul_v_identity : forall d (v : arr T (dimn d)), d_mul_v d (d_identity d) v = v.
Proof.
  by_ventries.
  transitivity (sumn (dimn d) (fun k => delta i k * vfun v k)).
  - apply sumn_ext; intros. rewrite d_identity_entry by assumption. reflexivity.
  - rewrite sumn_delta_l by assumption. reflexivity.
Qed.

(** ** C03 Vector times matrix (sizes 2, 4, 5, 6; size 3 is refuted below) *)

Lemma c03_row_product_partial : forall d (v : arr T (dimn d)) M j, d <> D3 -> j < dimn d ->
  aget (d_vmul_m d v M) j = Ok (sumn (dimn d) (fun k => vfun v k * mfun M k j)).
Proof. intros. rewrite vfun_aget by auto. rewrite d_vmul_m_entry by auto. reflexivity. Qed.

Lemma c03_transpose_partial : forall d (v : arr T (dimn d)) M, d <> D3 ->
  d_vmul_m d v M = d_mul_v d (d_transpose d M) v.
Proof.
  intros. apply vfun_ext; intros. rewrite d_vmul_m_entry, d_mul_v_entry by auto.
  apply sumn_ext; intros. rewrite d_transpose_entry by auto. ring.
Qed.

Lemma c03_mul_partial : forall d (v : arr T (dimn d)) A B, d <> D3 ->
  d_vmul_m d v (d_mul d A B) = d_vmul_m d (d_vmul_m d v A) B.
Proof.
  intros. apply vfun_ext; intros. rewrite !d_vmul_m_entry by auto.
  transitivity (sumn (dimn d) (fun k => sumn (dimn d) (fun l => vfun v k * mfun A k l * mfun B l i))).
  - apply sumn_ext; intros. rewrite d_mul_entry by assumption. unfold mmul.
    rewrite <- sumn_scal by assumption. apply sumn_ext; intros; ring.
  - rewrite sumn_swap by assumption. apply sumn_ext; intros.
    rewrite d_vmul_m_entry by assumption. rewrite <- sumn_scal_r by assumption. reflexivity.
Qed.

(** What size 3 computes instead: the column product [M * v]. *)
Lemma c03_size3_column_product : forall (v : V3 T) M, v3_mul_m v M = m33_mul_v M v.
Proof. intros. apply (vfun_ext 3). intros i Hi. all_lt i Hi; cells; ring. Qed.

(** ** C04 Determinant *)

Lemma c04_det_laplace : forall d (A : mat T (dimn d)), d_det d A = ldet (dimn d) (mfun A).
Proof. exact (d_det_ldet RT). Qed.

(** expansion along any row, with the minors *)
Lemma c04_det_expand_row : forall d (A : mat T (dimn d)) i, i < dimn d ->
  d_det d A = sumn (dimn d) (fun j =>
    mfun A i j * (sgn (i + j) * ldet (dimn d - 1) (minor i j (mfun A)))).
Proof.
  intros d A i Hi. rewrite c04_det_laplace. symmetry.
  destruct d; cbn [dimn] in *; apply (cofactor_row RT); exact Hi.
Qed.

(** ** C05 Determinant laws *)

Lemma c05_det_mul : forall d (A B : mat T (dimn d)),
  d_det d (d_mul d A B) = d_det d A * d_det d B.
Proof.
  intros. rewrite !c04_det_laplace. rewrite <- (ldet_mul RT).
  apply ldet_ext. intros. apply (d_mul_entry RT); assumption.
Qed.

Lemma c05_det_transpose : forall d (A : mat T (dimn d)),
  d_det d (d_transpose d A) = d_det d A.
Proof.
  intros. rewrite !c04_det_laplace. rewrite <- (ldet_trans RT).
  apply ldet_ext. intros. unfold mtrans. apply d_transpose_entry; assumption.
Qed.

Lemma c05_det_identity : forall d, d_det d (d_identity d) = one.
Proof.
  intros. rewrite c04_det_laplace. rewrite <- (ldet_id RT (dimn d)).
  apply ldet_ext. intros. apply d_identity_entry; assumption.
Qed.

Lemma c05_det_scale : forall d (A : mat T (dimn d)) s,
  d_det d (d_scale d A s) = prodn (dimn d) (fun _ => s) * d_det d A.
Proof.
  intros. rewrite !c04_det_laplace. rewrite <- (ldet_scale RT).
  apply ldet_ext. intros. rewrite d_scale_entry by assumption. ring.
Qed.

Lemma c05_det_swap_rows : forall d (A B : mat T (dimn d)) r s,
  r < dimn d -> s < dimn d -> r <> s ->
  (forall j, j < dimn d -> mfun B r j = mfun A s j /\ mfun B s j = mfun A r j) ->
  (forall i j, i < dimn d -> j < dimn d -> i <> r -> i <> s -> mfun B i j = mfun A i j) ->
  d_det d B = - d_det d A.
Proof.
  intros d A B r s Hr Hs Hrs H1 H2. rewrite !c04_det_laplace.
  rewrite <- (ldet_swap_rows RT _ (mfun A) r s) by assumption.
  apply ldet_ext. intros i j Hi Hj. unfold swap_row.
  destruct (Nat.eqb_spec i r) as [->| ]; [apply H1; assumption| ].
  destruct (Nat.eqb_spec i s) as [->| ]; [apply H1; assumption| ].
  apply H2; assumption.
Qed.

(** ** C08 Transpose (the entry law and the involution are below, for any type) *)

Lemma c08_transpose_add : forall d (A B : mat T (dimn d)),
  d_transpose d (d_add d A B) = d_add d (d_transpose d A) (d_transpose d B).
Proof. by_entries. reflexivity. Qed.

Lemma c08_transpose_mul : forall d (A B : mat T (dimn d)),
  d_transpose d (d_mul d A B) = d_mul d (d_transpose d B) (d_transpose d A).
Proof.
  by_entries. unfold mmul. apply sumn_ext; intros.
  rewrite !d_transpose_entry by assumption. ring.
Qed.

(** ** C09 Trace (the norm laws are in ProofsNorm) *)

Lemma c09_trace_diagonal : forall d (A : mat T (dimn d)),
  d_trace d A = sumn (dimn d) (fun i => mfun A i i).
Proof. exact (d_trace_entry RT). Qed.

Lemma c09_trace_add : forall d (A B : mat T (dimn d)),
  d_trace d (d_add d A B) = d_trace d A + d_trace d B.
Proof.
  intros. rewrite !c09_trace_diagonal, <- sumn_add by assumption.
  apply sumn_ext; intros. apply d_add_entry; assumption.
Qed.

Lemma c09_trace_mul_comm : forall d (A B : mat T (dimn d)),
  d_trace d (d_mul d A B) = d_trace d (d_mul d B A).
Proof.
  intros. rewrite !c09_trace_diagonal.
  transitivity (sumn (dimn d) (fun i => sumn (dimn d) (fun k => mfun A i k * mfun B k i))).
  - apply sumn_ext; intros. apply (d_mul_entry RT); assumption.
  - rewrite sumn_swap by assumption. apply sumn_ext; intros.
    rewrite d_mul_entry by assumption. apply sumn_ext; intros. ring.
Qed.

(** ** C17 Module laws *)

Lemma c17_add_assoc : forall d (A B C : mat T (dimn d)),
  d_add d (d_add d A B) C = d_add d A (d_add d B C).
Proof. by_entries. ring. Qed.
Lemma c17_add_comm : forall d (A B : mat T (dimn d)), d_add d A B = d_add d B A.
Proof. by_entries. ring. Qed.
Lemma c17_add_zeros : forall d (A : mat T (dimn d)), d_add d A (d_zeros d) = A.
Proof. by_entries. ring. Qed.
Lemma c17_add_neg : forall d (A : mat T (dimn d)), d_add d A (d_neg d A) = d_zeros d.
Proof. by_entries. ring. Qed.
Lemma c17_sub_neg : forall d (A B : mat T (dimn d)), d_sub d A B = d_add d A (d_neg d B).
Proof. by_entries. ring. Qed.
Lemma c17_scale_add : forall d (A B : mat T (dimn d)) s t,
  d_scale d (d_add d A B) s = d_add d (d_scale d A s) (d_scale d B s)
  /\ d_scale d A (s + t) = d_add d (d_scale d A s) (d_scale d A t)
  /\ d_scale d (d_scale d A s) t = d_scale d A (s * t)
  /\ d_scale d A one = A /\ d_scale d A zero = d_zeros d.
Proof. repeat split; by_entries; ring. Qed.

Lemma c17_vadd_assoc : forall d (u v w : arr T (dimn d)),
  d_vadd d (d_vadd d u v) w = d_vadd d u (d_vadd d v w).
Proof. by_ventries. ring. Qed.
Lemma c17_vadd_comm : forall d (v w : arr T (dimn d)), d_vadd d v w = d_vadd d w v.
Proof. by_ventries. ring. Qed.
Lemma c17_vadd_zeros : forall d (v : arr T (dimn d)), d_vadd d v (d_vzeros d) = v.
Proof. by_ventries. ring. Qed.
Lemma c17_vadd_neg : forall d (v : arr T (dimn d)), d_vadd d v (d_vneg d v) = d_vzeros d.
Proof. by_ventries. ring. Qed.
Lemma c17_vsub_neg : forall d (v w : arr T (dimn d)), d_vsub d v w = d_vadd d v (d_vneg d w).
Proof. by_ventries. ring. Qed.
Lemma c17_vscale_add : forall d (v w : arr T (dimn d)) s t,
  d_vscale d (d_vadd d v w) s = d_vadd d (d_vscale d v s) (d_vscale d w s)
  /\ d_vscale d v (s + t) = d_vadd d (d_vscale d v s) (d_vscale d v t)
  /\ d_vscale d (d_vscale d v s) t = d_vscale d v (s * t)
  /\ d_vscale d v one = v /\ d_vscale d v zero = d_vzeros d.
Proof. repeat split; by_ventries; ring. Qed.

Lemma c17_vlscale : forall d (v : arr T (dimn d)) s, d_vlscale d s v = d_vscale d v s.
Proof.
  intros. apply vfun_ext; intros i Hi. rewrite d_vscale_entry by assumption.
  destruct (d_vlscale_entry d v s i Hi) as [-> | ->]; ring.
Qed.

Lemma c17_mlscale : forall s (A : M22 T) (B : M33 T),
  m22_lscale s A = m22_scale A s /\ m33_lscale s B = m33_scale B s.
Proof. split; apply mfun_ext; intros i j Hi Hj; all_lt i Hi; all_lt j Hj; cells; ring. Qed.

(** [dot] is a symmetric bilinear form *)
Lemma c18_dot_bilinear : forall d (u v w : arr T (dimn d)) s,
  d_vdot d u v = sumn (dimn d) (fun i => vfun u i * vfun v i)
  /\ d_vdot d u v = d_vdot d v u
  /\ d_vdot d (d_vadd d u v) w = d_vdot d u w + d_vdot d v w
  /\ d_vdot d (d_vscale d u s) w = d_vdot d u w * s.
Proof.
  repeat split; intros; rewrite ?d_vdot_entry by assumption.
  - reflexivity.
  - apply sumn_ext; intros; ring.
  - rewrite <- sumn_add by assumption. apply sumn_ext; intros.
    rewrite d_vadd_entry by assumption. ring.
  - rewrite <- sumn_scal_r by assumption. apply sumn_ext; intros.
    rewrite d_vscale_entry by assumption. ring.
Qed.

(** ** C20 Cross product *)

Ltac vec3 := intros; repeat match goal with v : arr T 3 |- _ => destruct v as (?&?&?&[]) end;
  lazy -[add mul zero one sub neg div];
  repeat match goal with |- (_, _) = (_, _) => refine (f_equal2 pair _ _) end;
  try reflexivity; ring.

Lemma c20_cross_bilinear : forall (u v w : V3 T) s,
  v3_cross (v3_add u v) w = v3_add (v3_cross u w) (v3_cross v w)
  /\ v3_cross u (v3_add v w) = v3_add (v3_cross u v) (v3_cross u w)
  /\ v3_cross (v3_scale u s) v = v3_scale (v3_cross u v) s
  /\ v3_cross u (v3_scale v s) = v3_scale (v3_cross u v) s.
Proof. repeat split; vec3. Qed.

Lemma c20_cross_anticomm : forall (u v : V3 T),
  v3_cross u v = v3_neg (v3_cross v u) /\ v3_cross u u = v3_zeros.
Proof. split; vec3. Qed.

Lemma c20_cross_orthogonal : forall (u v : V3 T),
  v3_dot u (v3_cross u v) = zero /\ v3_dot v (v3_cross u v) = zero.
Proof. split; vec3. Qed.

Lemma c20_jacobi : forall (u v w : V3 T),
  v3_add (v3_add (v3_cross u (v3_cross v w)) (v3_cross v (v3_cross w u)))
         (v3_cross w (v3_cross u v)) = v3_zeros.
Proof. vec3. Qed.

Lemma c20_lagrange : forall (a b c d : V3 T),
  v3_dot (v3_cross a b) (v3_cross c d)
  = v3_dot a c * v3_dot b d - v3_dot a d * v3_dot b c
  /\ v3_cross a (v3_cross b c) = v3_sub (v3_scale b (v3_dot a c)) (v3_scale c (v3_dot a b)).
Proof. split; vec3. Qed.

Lemma c20_cross_norm : forall (v w : V3 T),
  v3_dot (v3_cross v w) (v3_cross v w)
  = v3_dot v v * v3_dot w w - v3_dot v w * v3_dot v w.
Proof. vec3. Qed.

(** the triple product is the determinant of the matrix with rows [u], [v], [w] *)
Lemma c20_triple_det : forall (u v w : V3 T),
  v3_dot u (v3_cross v w) = ldet 3 (mfun ([|u; v; w|] : M33 T))
  /\ exists M, m33_new_from_vecs [|u; v; w|] = Ok M /\ v3_dot u (v3_cross v w) = m33_det M.
Proof.
  intros u v w. split; [vec3| ].
  destruct u as (a&b&c&[]), v as (d&e&f&[]), w as (g&h&i&[]).
  exists [|[|a; d; g|]; [|b; e; h|]; [|c; f; i|]|].
  split; [reflexivity| ]. lazy -[add mul zero one sub neg div]. ring.
Qed.

(** right-handedness: the axes *)
Lemma c20_axes : v3_cross v3_x_axis v3_y_axis = (v3_z_axis : V3 T)
  /\ v3_cross v3_y_axis v3_z_axis = (v3_x_axis : V3 T)
  /\ v3_cross v3_z_axis v3_x_axis = (v3_y_axis : V3 T).
Proof. repeat split; vec3. Qed.

End WithRing.

(** ** Laws that hold for every element type, ring or not *)

Lemma c08_transpose_entry : forall U d (A : mat U (dimn d)) i j,
  i < dimn d -> j < dimn d -> mget (d_transpose d A) i j = mget A j i.
Proof. exact d_transpose_mget. Qed.

Lemma c08_transpose_involutive : forall U d (A : mat U (dimn d)),
  d_transpose d (d_transpose d A) = A.
Proof. intros. apply mget_ext; intros. rewrite !d_transpose_mget by assumption. reflexivity. Qed.

Lemma c17_assign_ops : forall T (nT : Num T) d (A B : mat T (dimn d)) (v w : arr T (dimn d)),
  d_add_assign d A B = d_add d A B /\ d_sub_assign d A B = d_sub d A B
  /\ d_vadd_assign d v w = d_vadd d v w /\ d_vsub_assign d v w = d_vsub d v w.
Proof.
  intros. repeat split; first [apply mfun_ext | apply vfun_ext];
  destruct d; cbn [dimn]; intros;
  repeat match goal with [ H : (?i < _)%nat |- _ ] => all_lt i H end; reflexivity.
Qed.

(** ** C03 is false for size 3 *)

Lemma c03_row_product_refuted : exists (v : V3 Z) (M : M33 Z) j,
  j < 3 /\ aget (v3_mul_m v M) j <> Ok (sumn 3 (fun k => vfun v k * mfun M k j)).
Proof.
  exists [|1; 0; 0|]%Z, [|[|0; 1; 0|]; [|0; 0; 0|]; [|0; 0; 0|]|]%Z, 1%nat.
  split; [lia| ]. cbv. discriminate.
Qed.

Lemma c03_mul_refuted : exists (v : V3 Z) (A B : M33 Z),
  v3_mul_m v (m33_mul A B) <> v3_mul_m (v3_mul_m v A) B.
Proof.
  exists [|1; 0; 0|]%Z, [|[|0; 1; 0|]; [|0; 0; 0|]; [|0; 0; 0|]|]%Z,
    [|[|0; 0; 0|]; [|1; 0; 0|]; [|0; 0; 0|]|]%Z.
  cbv. discriminate.
Qed.

(** ** Concrete cases *)

(** hypotheses: [RingLaws] holds of exact integers and of 32-bit wrapping ones *)
Example ring_laws_Z : RingLaws Z := Z_ring.
Example ring_laws_i32 : @RingLaws (wint (2 ^ 32)) (wint_Num (2 ^ 32) eq_refl) (wint_Signed (2 ^ 32) eq_refl)
  := wint_ring (2 ^ 32) eq_refl.

Definition exA : M33 Z := [|[|1; 2; 3|]; [|0; 1; 4|]; [|5; 6; 0|]|]%Z.
Definition exB : M33 Z := [|[|2; 0; 1|]; [|1; -1; 3|]; [|0; 7; 2|]|]%Z.

Example C01_example : d_mul D3 exA exB = [|[|4; 19; 13|]; [|1; 27; 11|]; [|16; -6; 23|]|]%Z
  /\ d_mul D3 exA exB <> d_mul D3 exB exA
  /\ d_mul D3 (d_mul D3 exA exB) exB = d_mul D3 exA (d_mul D3 exB exB).
Proof. repeat split; try reflexivity; try discriminate. Qed.
Example C02_example : d_mul_v D3 exA [|1; -1; 2|]%Z = [|5; 7; -1|]%Z.
Proof. reflexivity. Qed.
Example C03_example :
  D2 <> D3 /\ d_vmul_m D2 [|1; 2|]%Z [|[|1; 2|]; [|3; 4|]|]%Z = [|7; 10|]%Z.
Proof. split; [discriminate | reflexivity]. Qed.
Example C04_example : d_det D3 exA = 1%Z /\ ldet 3 (mfun exB) = (-39)%Z /\ d_det D3 exB = (-39)%Z.
Proof. repeat split. Qed.
Example C05_example : d_det D3 (d_mul D3 exA exB) = (-39)%Z
  /\ d_det D3 (d_scale D3 exA 2%Z) = 8%Z
  /\ d_det D3 [|[|0; 1; 4|]; [|1; 2; 3|]; [|5; 6; 0|]|]%Z = (- d_det D3 exA)%Z.
Proof. repeat split. Qed.
Example C08_example : d_transpose D3 exA = [|[|1; 0; 5|]; [|2; 1; 6|]; [|3; 4; 0|]|]%Z.
Proof. reflexivity. Qed.
Example C09_trace_example : d_trace D3 (d_mul D3 exA exB) = 54%Z
  /\ d_trace D3 (d_mul D3 exB exA) = 54%Z.
Proof. split; reflexivity. Qed.
Example C17_example : d_add D3 exA (d_neg D3 exA) = d_zeros D3
  /\ d_sub D3 exA exB = [|[|-1; 2; 2|]; [|-1; 2; 1|]; [|5; -1; -2|]|]%Z.
Proof. split; reflexivity. Qed.
Example C20_example : v3_cross [|1; 2; 3|]%Z [|4; 5; 6|]%Z = [|-3; 6; -3|]%Z
  /\ v3_dot [|1; 2; 3|]%Z (v3_cross [|1; 2; 3|]%Z [|4; 5; 6|]%Z) = 0%Z
  /\ v3_dot [|1; 0; 2|]%Z (v3_cross [|1; 2; 3|]%Z [|4; 5; 7|]%Z) = (-7)%Z.
Proof. repeat split. Qed.
