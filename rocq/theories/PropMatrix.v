(* C10-C16: Matrix33 *)
From Coq Require Import Reals ZArith Lra Lia List Bool.
From Verif Require Import Outcome RealOps MathModel ColorModel XReal SpecLin MatProofs GjProofs.
Import ListNotations.
Open Scope R_scope.

(* ---- C10 transpose ---- *)
(* for every number type: entry (i,j) of the transpose is entry (j,i), the bounds included *)
Theorem C10_transposed_entries : forall (T : Type) (m : mat33 T) (i j : nat),
  (i < 3)%nat -> (j < 3)%nat -> mat_index (mat_transposed m) i j = mat_index m j i.
Proof.
  intros T m i j Hi Hj. destruct m.
  destruct i as [|[|[|i]]]; try lia; destruct j as [|[|[|j]]]; try lia; reflexivity.
Qed.
Print Assumptions C10_transposed_entries.

Theorem C10_transposed_involutive : forall (T : Type) (m : mat33 T),
  mat_transposed (mat_transposed m) = m.
Proof. intros T m. destruct m. reflexivity. Qed.
Print Assumptions C10_transposed_involutive.

Theorem C10_transposed_mul : forall (K : XConst) (a b : RM),
  mat_transposed (mat_mul (FinM a) (FinM b))
  = mat_mul (mat_transposed (FinM b)) (mat_transposed (FinM a))
  /\ mat_transposed (mat_mul (FinM a) (FinM b)) = FinM (mtr (mmul a b)).
Proof.
  intros K a b. rewrite mat_mul_fin, !mat_transposed_fin, mat_mul_fin, mtr_mul. split; reflexivity.
Qed.
Print Assumptions C10_transposed_mul.

(* ---- C11 determinant ---- *)
Theorem C11_determinant_leibniz : forall (K : XConst) (a b c d e f g h i : R),
  mat_determinant (FinM (Mat33 a b c d e f g h i)) =
  Fin (a * e * i + b * f * g + c * d * h - c * e * g - b * d * i - a * f * h).
Proof. intros. exact (mat_determinant_fin (Mat33 a b c d e f g h i)). Qed.
Print Assumptions C11_determinant_leibniz.

Theorem C11_determinant_laws : forall (K : XConst) (a b : RM),
  mat_determinant (mat_mul (FinM a) (FinM b))
  = rmul (mat_determinant (FinM a)) (mat_determinant (FinM b))
  /\ mat_determinant mat_identity = Fin 1
  /\ mat_determinant (mat_transposed (FinM a)) = mat_determinant (FinM a).
Proof.
  intros K a b. rewrite mat_mul_fin, !mat_determinant_fin, mdet_mul, mat_identity_fin,
    mat_determinant_fin, mdet_one, mat_transposed_fin, mat_determinant_fin, mdet_tr.
  repeat split; reflexivity.
Qed.
Print Assumptions C11_determinant_laws.

Example C11_example (K : XConst) : mat_determinant (FinM (Mat33 2 0 0 0 3 0 0 1 1)) = Fin 6.
Proof. rewrite mat_determinant_fin. f_equal. cbn. lra. Qed.

(* ---- C12 action on colours ---- *)
Theorem C12_mul_composes : forall (K : XConst) (a b : RM) (v : vec),
  mat_mul_xyz (mat_mul (FinM a) (FinM b)) (FinXyz v) = mat_mul_xyz (FinM a) (mat_mul_xyz (FinM b) (FinXyz v))
  /\ mat_mul_rgb (mat_mul (FinM a) (FinM b)) (FinRgb v) = mat_mul_rgb (FinM a) (mat_mul_rgb (FinM b) (FinRgb v))
  /\ mat_mul_xyz (FinM a) (FinXyz v) = FinXyz (mapp a v)
  /\ mat_mul_rgb (FinM a) (FinRgb v) = FinRgb (mapp a v).
Proof.
  intros K a b v.
  rewrite !mat_mul_fin, !mat_mul_xyz_fin, !mat_mul_rgb_fin, mapp_mul. repeat split; reflexivity.
Qed.
Print Assumptions C12_mul_composes.

Theorem C12_mul_monoid : forall (K : XConst) (a b c : RM),
  mat_mul (mat_mul (FinM a) (FinM b)) (FinM c) = mat_mul (FinM a) (mat_mul (FinM b) (FinM c))
  /\ mat_mul mat_identity (FinM a) = FinM a /\ mat_mul (FinM a) mat_identity = FinM a
  /\ mat_mul (FinM a) (FinM b) = FinM (mmul a b).
Proof.
  intros K a b c. rewrite mat_identity_fin, !mat_mul_fin, mmul_assoc, mmul_1_l, mmul_1_r.
  repeat split; reflexivity.
Qed.
Print Assumptions C12_mul_monoid.

Theorem C12_linear : forall (K : XConst) (a : RM) (u v : vec) (k : R),
  mat_mul_xyz (FinM a) (xyz_add (FinXyz u) (FinXyz v))
  = xyz_add (mat_mul_xyz (FinM a) (FinXyz u)) (mat_mul_xyz (FinM a) (FinXyz v))
  /\ mat_mul_xyz (FinM a) (xyz_mul_s (FinXyz u) (Fin k)) = xyz_mul_s (mat_mul_xyz (FinM a) (FinXyz u)) (Fin k)
  /\ mat_mul_rgb (FinM a) (rgb_add (FinRgb u) (FinRgb v))
  = rgb_add (mat_mul_rgb (FinM a) (FinRgb u)) (mat_mul_rgb (FinM a) (FinRgb v))
  /\ mat_mul_rgb (FinM a) (rgb_mul_s (FinRgb u) (Fin k)) = rgb_mul_s (mat_mul_rgb (FinM a) (FinRgb u)) (Fin k).
Proof.
  intros K a u v k. destruct a as [a b c d e f g h i], u as [[x y] z], v as [[x' y'] z'].
  cbv beta iota delta [mat_mul_xyz mat_mul_rgb FinM FinXyz FinRgb xyz_add rgb_add xyz_mul_s rgb_mul_s
    mx0 mx1 mx2 mx3 mx4 mx5 mx6 mx7 mx8 xyz_x xyz_y xyz_z rgb_r rgb_g rgb_b
    radd rmul xr_ops xlift2].
  repeat split; fin_ring.
Qed.
Print Assumptions C12_linear.

(* ---- C13 inverse returns only true inverses ---- *)
(* False as stated: the branch for "affine" matrices divides the whole matrix by the 2x2
   determinant, including the bottom right 1 ... *)
Theorem C13_inverse_sound_refuted : forall (K : XConst) (KO : XConstOk K),
  exists m n : RM, mat_inverse (FinM m) = Some (FinM n) /\ ~ is_inverse n m /\ mdet m <> 0.
Proof.
  intros K KO. exists (Mat33 2 0 0 0 1 0 0 0 1), (Mat33 (1/2) 0 0 0 1 0 0 0 (1/2)).
  assert (G : ~ general_case (Mat33 2 0 0 0 1 0 0 0 1)).
  { cbn. pose proof (@xeps_pos K KO). replace (1 - 1) with 0 by ring. rewrite Rabs_R0. lra. }
  split; [|split].
  - destruct (inverse_affine _ G) as [[_ E]|[S _]].
    + rewrite E. f_equal. cbn. f_equal; f_equal; field.
    + elim S. left. cbn. rewrite Rabs_right; lra.
  - intros [H _]. cbn in H. unfold mone in H. injection H. lra.
  - cbn. lra.
Qed.
Print Assumptions C13_inverse_sound_refuted.

(* ... and the test choosing the branch forgets the absolute value of two entries. *)
Theorem C13_inverse_sound_refuted_sign : forall (K : XConst) (KO : XConstOk K),
  exists m n : RM, mat_inverse (FinM m) = Some (FinM n) /\ ~ is_inverse n m /\ mdet m = 1.
Proof.
  intros K KO. exists (Mat33 1 0 (-1) 0 1 0 0 0 1), (Mat33 1 0 0 0 1 0 0 0 1).
  assert (G : ~ general_case (Mat33 1 0 (-1) 0 1 0 0 0 1)).
  { cbn. pose proof (@xeps_pos K KO). replace (1 - 1) with 0 by ring. rewrite Rabs_R0. lra. }
  split; [|split].
  - destruct (inverse_affine _ G) as [[_ E]|[S _]].
    + rewrite E. f_equal. cbn. f_equal; f_equal; field.
    + elim S. left. cbn. rewrite Rabs_right; lra.
  - intros [H _]. cbn in H. unfold mone in H. injection H. lra.
  - cbn. lra.
Qed.
Print Assumptions C13_inverse_sound_refuted_sign.

(* Exact picture.  Missing for the full statement: the matrices of the second case that fail
   its condition, for which the returned matrix is wrong. *)
Theorem C13_inverse_sound_partial : forall (K : XConst) (KO : XConstOk K) (m : RM) (n : mat33 xr),
  mat_inverse (FinM m) = Some n ->
  exists N, n = FinM N /\
  match m with
  | Mat33 a b c d e f g h i =>
      (* an entry of the last column is away from (0,0,1): correct *)
      ((xeps < c \/ xeps < f \/ xeps < Rabs (i - 1)) -> is_inverse N m)
      (* otherwise: correct exactly when ... *)
      /\ (~ (xeps < c \/ xeps < f \/ xeps < Rabs (i - 1)) ->
          (is_inverse N m <->
           c = 0 /\ f = 0 /\ i = a * e - d * b /\ (a * e - d * b = 1 \/ (g = 0 /\ h = 0))))
  end.
Proof.
  intros K KO m n H.
  assert (D : general_case m \/ ~ general_case m).
  { destruct (inv_general_spec m); tauto. }
  destruct D as [G|G].
  - destruct (inverse_general m G) as [[S E]|[_ E]]; rewrite E in H; [|discriminate].
    injection H as <-. exists (minv m). split; [reflexivity|].
    assert (I : is_inverse (minv m) m) by (apply minv_is_inverse; exact (scalable_nz _ _ S)).
    destruct m. cbn in G. split; [intros _; exact I | intro N; contradiction].
  - destruct (inverse_affine m G) as [[S E]|[_ E]]; rewrite E in H; [|discriminate].
    injection H as <-. exists (affine_result m). split; [reflexivity|].
    pose proof (affine_result_right m (scalable_nz _ _ S)) as X.
    destruct m. cbn in G. split; [intro N; contradiction | intros _; exact X].
Qed.
Print Assumptions C13_inverse_sound_partial.

(* ---- C14 inverse is complete on well-conditioned matrices ---- *)
(* adjugate entries, the numbers compared with |det| / MIN_POSITIVE *)
Definition well_conditioned {K : XConst} (m : RM) : Prop :=
  1 <= Rabs (mdet m) \/
  match madj m with
  | Mat33 a b c d e f g h i =>
      forall x, In x [a; b; c; d; e; f; g; h; i] -> Rabs x < Rabs (mdet m) / xtiny
  end.

Theorem C14_inverse_complete_partial : forall (K : XConst) (KO : XConstOk K) (a b c d e f g h i : R),
  let m := Mat33 a b c d e f g h i in
  (xeps < c \/ xeps < f \/ xeps < Rabs (i - 1)) ->
  (well_conditioned m -> mat_inverse (FinM m) = Some (FinM (minv m)) /\ is_inverse (minv m) m)
  /\ (~ well_conditioned m -> mat_inverse (FinM m) = None)
  /\ (mdet m = 0 -> mat_inverse (FinM m) = None).
Proof.
  intros K KO a b c d e f g h i m G.
  assert (W : scalable (mdet m) (madj m) <-> well_conditioned m).
  { unfold scalable, well_conditioned. cbn [madj m mall In]. split; (intros [H|H]; [left; exact H|right]).
    - intros x Hx. decompose [or and] Hx; subst; tauto.
    - repeat split; apply H; tauto. }
  destruct (inverse_general m G) as [[S E]|[S E]]; rewrite E.
  - split; [|split].
    + intros _. split; [reflexivity|]. apply minv_is_inverse, (scalable_nz _ _ S).
    + intro N. elim N. apply W, S.
    + intro Z. elim (scalable_nz _ _ S). exact Z.
  - split; [|split; reflexivity]. intro N. elim S. apply W, N.
Qed.
Print Assumptions C14_inverse_complete_partial.

(* singular, yet an "inverse" is returned: the affine branch looks at the 2x2 block only *)
Theorem C14_inverse_singular_refuted : forall (K : XConst) (KO : XConstOk K),
  exists m n, mdet m = 0 /\ mat_inverse (FinM m) = Some (FinM n).
Proof.
  intros K KO. exists (Mat33 1 0 (-1) 0 1 0 (-1) 0 1).
  assert (G : ~ general_case (Mat33 1 0 (-1) 0 1 0 (-1) 0 1)).
  { cbn. pose proof (@xeps_pos K KO). replace (1 - 1) with 0 by ring. rewrite Rabs_R0. lra. }
  destruct (inverse_affine _ G) as [[_ E]|[S _]].
  - exists (affine_result (Mat33 1 0 (-1) 0 1 0 (-1) 0 1)). split; [cbn; lra|exact E].
  - elim S. left. cbn. rewrite Rabs_right; lra.
Qed.
Print Assumptions C14_inverse_singular_refuted.

(* and a true affine matrix (last column 0,0,1) is never refused when its determinant is >= 1 *)
Theorem C14_inverse_affine_answer : forall (K : XConst) (KO : XConstOk K) (a b d e g h : R),
  1 <= Rabs (a * e - d * b) ->
  exists n, mat_inverse (FinM (Mat33 a b 0 d e 0 g h 1)) = Some (FinM n).
Proof.
  intros K KO a b d e g h H.
  assert (G : ~ general_case (Mat33 a b 0 d e 0 g h 1)).
  { cbn. pose proof (@xeps_pos K KO). replace (1 - 1) with 0 by ring. rewrite Rabs_R0. lra. }
  destruct (inverse_affine _ G) as [[_ E]|[S _]].
  - eexists; exact E.
  - elim S. left. exact H.
Qed.
Print Assumptions C14_inverse_affine_answer.

(* the hypotheses are met by an ordinary matrix, with the constants of f64 *)
Example C13_C14_example :
  let m := Mat33 1 2 3 0 1 4 5 6 0 in
  @mat_inverse xr (@xr_ops f64_const) (FinM m) = Some (FinM (Mat33 (-24) 18 5 20 (-15) (-4) (-5) 4 1)).
Proof.
  intro m. pose proof f64_const_ok as KO.
  destruct (C14_inverse_complete_partial f64_const KO 1 2 3 0 1 4 5 6 0) as [H _].
  - left. cbn. unfold Raux.bpow. cbn. lra.
  - destruct H as [H _].
    + left. cbn. replace (1 * 1 * 0 + 2 * 4 * 5 + 3 * 0 * 6 - 3 * 1 * 5 - 2 * 0 * 0 - 1 * 4 * 6) with 1 by ring.
      rewrite Rabs_R1. lra.
    + unfold m. rewrite H. f_equal. cbn. f_equal; f_equal; field.
Qed.

(* ---- C15 gj_inverse returns only true inverses ---- *)
Theorem C15_gj_inverse_sound : forall (K : XConst) (m n : RM),
  mat_gj_inverse (FinM m) = Some (FinM n) -> is_inverse n m.
Proof. intros K m n. exact (gj_sound m n). Qed.
Print Assumptions C15_gj_inverse_sound.

(* ---- C16 gj_inverse inverts every invertible matrix ---- *)
(* False as stated.  The pivots are looked up in the original matrix, not in the matrix being
   reduced, so an invertible matrix can be refused, and it can also end in a division by zero. *)
Theorem C16_gj_inverse_complete_refuted : forall (K : XConst),
  exists m : RM, mdet m <> 0 /\ forall n : RM, mat_gj_inverse (FinM m) <> Some (FinM n).
Proof.
  intros K. exists (Mat33 0 1 0 1 0 0 0 0 1). split; [cbn; lra|].
  intros n E. apply (gj_only _ _ E); [|exists n; reflexivity].
  intros (p0 & p1 & P0 & P1 & H & _). unfold is_pivot1, ent, mget in *. cbn in *.
  rewrite ?Rabs_R0, ?Rabs_R1 in *.
  destruct P1 as [[-> _]|[-> _]]; cbn in H; lra.
Qed.
Print Assumptions C16_gj_inverse_complete_refuted.

Theorem C16_gj_inverse_complete_refuted_division : forall (K : XConst),
  exists m : RM, mdet m = -1 /\ ent m 0 0 = 1 /\ ent m 1 1 = 1 /\
    forall n : RM, mat_gj_inverse (FinM m) <> Some (FinM n).
Proof.
  intros K. exists (Mat33 1 1 0 1 1 1 0 1 0). split; [cbn; lra|]. split; [reflexivity|]. split; [reflexivity|].
  intros n E. apply (gj_only _ _ E); [|exists n; reflexivity].
  intros (p0 & p1 & P0 & P1 & _ & _ & H & _). unfold is_pivot0, is_pivot1, ent, mget in *. cbn in P0, P1.
  rewrite ?Rabs_R0, ?Rabs_R1 in *.
  destruct P0 as [[-> P0]|[[-> P0]|[-> P0]]]; [|lra|lra].
  destruct P1 as [[-> P1]|[-> P1]]; [|lra].
  cbn in H. lra.
Qed.
Print Assumptions C16_gj_inverse_complete_refuted_division.

(* Exactly which matrices are inverted: with C the matrix after exchanging row 0 with the row p0
   holding the largest first-column entry, then row 1 with the row p1 >= 1 holding the largest
   second-column entry OF THE ORIGINAL, the leading minors of C must not vanish (and the original
   entry at (p1,1) neither).  Missing for the full statement: all other invertible matrices. *)
Theorem C16_gj_inverse_complete_partial : forall (K : XConst) (m : RM),
  (exists n, mat_gj_inverse (FinM m) = Some (FinM n)) <-> gj_ok m.
Proof.
  intros K m. split.
  - intros [n E]. destruct (gj_cases m) as [[H _]|[_ H]]; [exact H|].
    rewrite E in H. elim H. exists n. reflexivity.
  - intro H. exists (minv m). exact (gj_complete m H).
Qed.
Print Assumptions C16_gj_inverse_complete_partial.

(* a class of matrices met in practice: the first two columns are dominated by their diagonal *)
Theorem C16_gj_inverse_dominant : forall (K : XConst) (a b c d e f g h i : R),
  let m := Mat33 a b c d e f g h i in
  Rabs d <= Rabs a -> Rabs g <= Rabs a -> Rabs h <= Rabs e ->
  e <> 0 -> a * e - d * b <> 0 -> mdet m <> 0 ->
  mat_gj_inverse (FinM m) = Some (FinM (minv m)) /\ is_inverse (minv m) m.
Proof.
  intros K a b c d e f g h i m H1 H2 H3 He Hm Hd. split; [|apply minv_is_inverse, Hd].
  apply gj_complete. exists 0%nat, 1%nat.
  assert (a <> 0).
  { intro E. subst a. rewrite Rabs_R0 in *.
    assert (d = 0) by (apply Rabs_zero_iff; pose proof (Rabs_pos d); lra). subst d. apply Hm. ring. }
  split; [left|split; [left|]]; cbn; repeat split; try assumption; lra.
Qed.
Print Assumptions C16_gj_inverse_dominant.

Example C15_C16_example (K : XConst) :
  mat_gj_inverse (FinM (Mat33 2 1 0 0 2 1 0 0 4)) =
  Some (FinM (Mat33 (1/2) (-1/4) (1/16) 0 (1/2) (-1/8) 0 0 (1/4))).
Proof.
  destruct (C16_gj_inverse_dominant K 2 1 0 0 2 1 0 0 4) as [E _];
    rewrite ?Rabs_R0; try (pose proof (Rabs_pos 2)); try (cbn; lra).
  rewrite E. f_equal. cbn. f_equal; f_equal; field.
Qed.
