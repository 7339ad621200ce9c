(* C17-C22: xyY, XYZ and chromatic adaptation *)
From Coq Require Import Reals ZArith QArith Qreals Lra Lia List Bool.
From Flocq Require Import Core BinarySingleNaN.
From Verif Require Import Outcome RealOps MathModel ColorModel AdaptModel XReal SpecLin MatProofs
  AdaptProofs FloatInst FloatProofs.
Import ListNotations.
Open Scope R_scope.

(* ---- C17 ---- *)
Theorem C17_xyY_XYZ_xyY : forall (K : XConst) (x y Y : R), y <> 0 -> Y <> 0 ->
  xyy_from_xyz (xyz_from_chromaticity (Xyy (Fin x) (Fin y) (Fin Y))) = Xyy (Fin x) (Fin y) (Fin Y).
Proof.
  intros K x y Y Hy HY. change (Xyy (Fin x) (Fin y) (Fin Y)) with (FinXyy (x, y, Y)).
  rewrite xyz_from_chromaticity_fin by exact Hy.
  assert (S : 100 * (x * Y / y) + 100 * Y + 100 * ((1 - x - y) * Y / y) = 100 * Y / y) by (field; exact Hy).
  assert (N : 100 * Y / y <> 0).
  { unfold Rdiv. repeat apply Rmult_integral_contrapositive_currified; try lra. apply Rinv_neq_0_compat; exact Hy. }
  rewrite xyy_from_xyz_fin by (rewrite S; exact N). rewrite S.
  unfold FinXyy. f_equal; apply (f_equal Fin); field; tauto.
Qed.
Print Assumptions C17_xyY_XYZ_xyY.

Theorem C17_XYZ_xyY_XYZ : forall (K : XConst) (X Y Z : R), Y <> 0 -> X + Y + Z <> 0 ->
  xyz_from_chromaticity (xyy_from_xyz (Xyz (Fin X) (Fin Y) (Fin Z))) = Xyz (Fin X) (Fin Y) (Fin Z)
  /\ xyy_from_xyz (Xyz (Fin X) (Fin Y) (Fin Z))
     = Xyy (Fin (X / (X + Y + Z))) (Fin (Y / (X + Y + Z))) (Fin (Y / 100)).
Proof.
  intros K X Y Z HY HS. change (Xyz (Fin X) (Fin Y) (Fin Z)) with (FinXyz (X, Y, Z)).
  rewrite xyy_from_xyz_fin by exact HS. split; [|reflexivity].
  assert (N : Y / (X + Y + Z) <> 0).
  { unfold Rdiv. apply Rmult_integral_contrapositive_currified; [exact HY|]. apply Rinv_neq_0_compat; exact HS. }
  rewrite xyz_from_chromaticity_fin by exact N.
  unfold FinXyz. f_equal; apply (f_equal Fin); field; tauto.
Qed.
Print Assumptions C17_XYZ_xyY_XYZ.

(* without light, or with X+Y+Z = 0, the chromaticity is not a number *)
Theorem C17_black : forall (K : XConst) (X Y Z : R), X + Y + Z = 0 ->
  xyy_x (xyy_from_xyz (Xyz (Fin X) (Fin Y) (Fin Z))) = Bad
  /\ xyy_y (xyy_from_xyz (Xyz (Fin X) (Fin Y) (Fin Z))) = Bad
  /\ xyy_Y (xyy_from_xyz (Xyz (Fin X) (Fin Y) (Fin Z))) = Fin (Y / 100).
Proof.
  intros K X Y Z H. unfold xyy_from_xyz, xyz_div_s. cbn [xyz_x xyz_y xyz_z xyy_x xyy_y xyy_Y].
  xs. assert (E : Q2R 100.0 = 100) by (q2r; lra). rewrite E.
  rewrite !x_div by lra. xs.
  replace (X / 100 + Y / 100 + Z / 100) with 0 by lra. rewrite !x_div0. repeat split.
Qed.
Print Assumptions C17_black.

Example C17_example (K : XConst) :
  xyy_from_xyz (Xyz (Fin 20) (Fin 50) (Fin 30)) = Xyy (Fin (1 / 5)) (Fin (1 / 2)) (Fin (1 / 2)).
Proof.
  destruct (C17_XYZ_xyY_XYZ K 20 50 30) as [_ E]; try lra. rewrite E.
  f_equal; apply (f_equal Fin); field.
Qed.

(* ---- C18 ---- *)
Theorem C18_normalized : forall (K : XConst) (X Y Z : R), Y <> 0 -> X + Y + Z <> 0 ->
  let c := Xyz (Fin X) (Fin Y) (Fin Z) in
  xyz_y (xyz_normalized c) = Fin 1 /\ xyz_y (xyz_normalized_y c) = Fin 100
  /\ xyy_x (xyy_from_xyz (xyz_normalized c)) = Fin (X / (X + Y + Z))
  /\ xyy_y (xyy_from_xyz (xyz_normalized c)) = Fin (Y / (X + Y + Z))
  /\ xyy_x (xyy_from_xyz (xyz_normalized_y c)) = Fin (X / (X + Y + Z))
  /\ xyy_y (xyy_from_xyz (xyz_normalized_y c)) = Fin (Y / (X + Y + Z)).
Proof.
  intros K X Y Z HY HS c.
  assert (E1 : xyz_normalized c = FinXyz (X / Y, 1, Z / Y)).
  { unfold xyz_normalized, xyz_div, xyz_from_scalar, c. cbn [xyz_x xyz_y xyz_z].
    rewrite !x_div by exact HY. unfold FinXyz. f_equal; apply (f_equal Fin); field; exact HY. }
  assert (E2 : xyz_normalized_y c = FinXyz (100 * X / Y, 100, 100 * Z / Y)).
  { unfold xyz_normalized_y, xyz_div_s, xyz_mul_s, c. cbn [xyz_x xyz_y xyz_z].
    rewrite !x_div by exact HY. xs. unfold FinXyz. f_equal; apply (f_equal Fin); q2r; field; exact HY. }
  assert (N1 : X / Y + 1 + Z / Y <> 0).
  { replace (X / Y + 1 + Z / Y) with ((X + Y + Z) / Y) by (field; exact HY).
    unfold Rdiv. apply Rmult_integral_contrapositive_currified; [exact HS|]. apply Rinv_neq_0_compat; exact HY. }
  assert (N2 : 100 * X / Y + 100 + 100 * Z / Y <> 0).
  { replace (100 * X / Y + 100 + 100 * Z / Y) with (100 * (X / Y + 1 + Z / Y)) by (field; exact HY).
    apply Rmult_integral_contrapositive_currified; [lra|exact N1]. }
  rewrite E1, E2, !xyy_from_xyz_fin by assumption. cbn [FinXyz FinXyy xyz_y xyy_x xyy_y].
  repeat split; apply (f_equal Fin); field; repeat split; try assumption; try lra.
  all: replace (100 * X + 100 * Y + 100 * Z) with (100 * (X + Y + Z)) by ring;
    apply Rmult_integral_contrapositive_currified; [lra|exact HS].
Qed.
Print Assumptions C18_normalized.

Example C18_example : (20 : R) <> 0 /\ 10 + 20 + 30 <> 0.
Proof. lra. Qed.

(* ---- C19 ---- *)
(* every binary format, every libm, every rounding of the literals *)
Theorem C19_self_adaptation : forall prec emax (Hp : Prec_gt_0 prec) (He : Prec_lt_emax prec emax)
  (L : libm (binary_float prec emax)) (lit : Q -> binary_float prec emax)
  (x y z : binary_float prec emax),
  is_nan x = false -> is_nan y = false -> is_nan z = false ->
  let w := Xyz x y z in
  let I := Mat33 Bone (B754_zero false) (B754_zero false)
                 (B754_zero false) Bone (B754_zero false)
                 (B754_zero false) (B754_zero false) Bone in
  @bradford _ (b_ops prec emax L lit) w w = Ret I
  /\ @cat02 _ (b_ops prec emax L lit) w w = Ret I
  /\ @von_kries _ (b_ops prec emax L lit) w w = I.
Proof.
  intros prec emax Hp He L lit x y z Hx Hy Hz w I.
  assert (R : forall a : binary_float prec emax, is_nan a = false -> Beqb a a = true).
  { intros a Ha. rewrite Beqb_refl, Ha. reflexivity. }
  assert (E : @xyz_eqb _ (b_ops prec emax L lit) w w = true).
  { unfold xyz_eqb, w. cbn [xyz_x xyz_y xyz_z req b_ops]. rewrite !R by assumption. reflexivity. }
  unfold bradford, cat02, von_kries. rewrite E. repeat split.
Qed.
Print Assumptions C19_self_adaptation.

(* -0 and +0, and infinities, are covered *)
Example C19_example : is_nan (B754_zero true : f64) = false /\ is_nan (B754_infinity false : f64) = false.
Proof. split; reflexivity. Qed.

(* ---- C20 ---- *)
(* The second clause determines the matrix: in the published cone space it multiplies each
   channel by (destination white / source white). *)
Theorem C20_white_to_white : forall (K : XConst) (KO : XConstOk K) (s d : vec),
  (nonzero3 (mapp bradford_mat s) ->
   exists m, bradford (FinXyz s) (FinXyz d) = Ret (FinM m)
     /\ mat_mul_xyz (FinM m) (FinXyz s) = FinXyz d
     /\ forall v, mapp bradford_mat (mapp m v)
          = pmul (pdiv (mapp bradford_mat d) (mapp bradford_mat s)) (mapp bradford_mat v))
  /\ (nonzero3 (mapp cat02_mat s) ->
   exists m, cat02 (FinXyz s) (FinXyz d) = Ret (FinM m)
     /\ mat_mul_xyz (FinM m) (FinXyz s) = FinXyz d
     /\ forall v, mapp cat02_mat (mapp m v)
          = pmul (pdiv (mapp cat02_mat d) (mapp cat02_mat s)) (mapp cat02_mat v)).
Proof.
  intros K KO s d. split; intro H.
  - exists (adapt bradford_mat (minv bradford_mat) s d). repeat apply conj.
    + apply bradford_fin, H.
    + rewrite mat_mul_xyz_fin, adapt_white; [reflexivity| apply minv_l, bradford_nz | exact H].
    + intro v. apply adapt_cone, minv_r, bradford_nz.
  - exists (adapt cat02_mat (minv cat02_mat) s d). repeat apply conj.
    + apply cat02_fin, H.
    + rewrite mat_mul_xyz_fin, adapt_white; [reflexivity| apply minv_l, cat02_nz | exact H].
    + intro v. apply adapt_cone, minv_r, cat02_nz.
Qed.
Print Assumptions C20_white_to_white.

(* neither ever panics, whatever the whites (not finite ones included) *)
Theorem C20_no_panic : forall (K : XConst) (KO : XConstOk K) (s d : xyz xr),
  exists m m', bradford s d = Ret m /\ cat02 s d = Ret m'.
Proof.
  intros K KO s d. unfold bradford, cat02. rewrite bradford_inverse, cat02_inverse. cbn [unwrap obind].
  destruct (xyz_eqb s d); eauto.
Qed.
Print Assumptions C20_no_panic.

(* D50 and D65-like whites have nonzero cone responses *)
Example C20_example : nonzero3 (mapp bradford_mat (95.047, 100, 108.883))
  /\ nonzero3 (mapp cat02_mat (96.422, 100, 82.521)).
Proof. unfold nonzero3, v0, v1, v2, bradford_mat, cat02_mat. cbn [mapp fst snd]. lra. Qed.

(* ---- C21 ---- *)
Definition cat_laws (M : RM) (cat : xyz xr -> xyz xr -> outcome (mat33 xr)) {K : XConst} : Prop :=
  forall a b c, nonzero3 (mapp M a) -> nonzero3 (mapp M b) ->
    exists mab mbc mac mba, cat (FinXyz a) (FinXyz b) = Ret mab /\ cat (FinXyz b) (FinXyz c) = Ret mbc
      /\ cat (FinXyz a) (FinXyz c) = Ret mac /\ cat (FinXyz b) (FinXyz a) = Ret mba
      /\ mat_mul mbc mab = mac
      /\ mat_mul mba mab = FinM mone /\ mat_mul mab mba = FinM mone.
Theorem C21_compose_invert : forall (K : XConst) (KO : XConstOk K),
  cat_laws bradford_mat bradford /\ cat_laws cat02_mat cat02.
Proof.
  intros K KO. split; intros a b c Ha Hb; do 4 eexists.
  - rewrite !bradford_fin by assumption. repeat (split; [reflexivity|]).
    rewrite !mat_mul_fin, !adapt_compose, !adapt_self; try assumption; try (repeat split; reflexivity);
      solve [apply minv_r, bradford_nz | apply minv_l, bradford_nz].
  - rewrite !cat02_fin by assumption. repeat (split; [reflexivity|]).
    rewrite !mat_mul_fin, !adapt_compose, !adapt_self; try assumption; try (repeat split; reflexivity);
      solve [apply minv_r, cat02_nz | apply minv_l, cat02_nz].
Qed.
Print Assumptions C21_compose_invert.

(* ---- C22 ---- *)
(* The hard-coded inverse is rounded to 7 decimals: the source white lands within 5 parts in 10^8
   of the destination white, and not exactly on it. *)
Theorem C22_von_kries_partial : forall (K : XConst) (s : vec) (x y z : R),
  nonzero3 (mapp von_kries_mat s) ->
  exists x' y' z', mat_mul_xyz (von_kries (FinXyz s) (FinXyz (x, y, z))) (FinXyz s) = FinXyz (x', y', z')
    /\ Rabs (x' - x) <= 0.00000005 * (Rabs x + Rabs y + Rabs z)
    /\ Rabs (y' - y) <= 0.00000005 * (Rabs x + Rabs y + Rabs z)
    /\ Rabs (z' - z) <= 0.00000005 * Rabs z.
Proof.
  intros K s x y z H.
  assert (D : s = (x, y, z) \/ s <> (x, y, z)).
  { destruct s as [[a b] c]. destruct (Req_dec a x), (Req_dec b y), (Req_dec c z); subst; auto; right; congruence. }
  destruct D as [->|D].
  - exists x, y, z. unfold von_kries.
    assert (E : xyz_eqb (FinXyz (x, y, z)) (FinXyz (x, y, z)) = true) by (apply xyz_eqb_fin; reflexivity).
    rewrite E, mat_identity_fin, mat_mul_xyz_fin, mapp_one. split; [reflexivity|].
    replace (x - x) with 0 by ring. replace (y - y) with 0 by ring. replace (z - z) with 0 by ring.
    rewrite Rabs_R0. pose proof (Rabs_pos x). pose proof (Rabs_pos y). pose proof (Rabs_pos z). lra.
  - rewrite von_kries_fin by assumption.
    set (M := von_kries_mat) in *. set (N := von_kries_mat_inv).
    assert (E : mapp (adapt M N s (x, y, z)) s = mapp (mmul N M) (x, y, z)).
    { unfold adapt. rewrite !mapp_mul. f_equal.
      unfold nonzero3, v0, v1, v2 in *. destruct (mapp M s) as [[a b] c], (mapp M (x, y, z)) as [[a' b'] c'].
      cbn [fst snd] in *. destruct H as (Ha & Hb & Hc). cbn. vec_ring; field; assumption. }
    rewrite mat_mul_xyz_fin, E. unfold M, N, von_kries_mat, von_kries_mat_inv. cbn [mmul mapp FinXyz].
    do 3 eexists. split; [reflexivity|].
    repeat split; apply Rabs_le; unfold Rabs; destruct (Rcase_abs x), (Rcase_abs y), (Rcase_abs z); split; lra.
Qed.
Print Assumptions C22_von_kries_partial.

Theorem C22_von_kries_refuted : forall (K : XConst), exists s d : vec,
  nonzero3 (mapp von_kries_mat s) /\ nonzero3 (mapp von_kries_mat d)
  /\ mat_mul_xyz (von_kries (FinXyz s) (FinXyz d)) (FinXyz s) <> FinXyz d.
Proof.
  intro K. exists (95.047, 100, 108.883), (96.422, 100, 82.521).
  assert (H1 : nonzero3 (mapp von_kries_mat (95.047, 100, 108.883)))
    by (unfold nonzero3, v0, v1, v2, von_kries_mat; cbn [mapp fst snd]; lra).
  split; [exact H1|]. split; [unfold nonzero3, v0, v1, v2, von_kries_mat; cbn [mapp fst snd]; lra|].
  rewrite von_kries_fin, mat_mul_xyz_fin; [|exact H1| intro E; injection E; lra].
  set (s := (95.047, 100, 108.883)) in *. set (d := (96.422, 100, 82.521)).
  set (M := von_kries_mat) in *. set (N := von_kries_mat_inv).
  assert (E : mapp (adapt M N s d) s = mapp (mmul N M) d).
  { unfold adapt. rewrite !mapp_mul. f_equal.
    unfold nonzero3, v0, v1, v2 in *. destruct (mapp M s) as [[a b] c], (mapp M d) as [[a' b'] c'].
    cbn [fst snd] in *. destruct H1 as (Ha & Hb & Hc). cbn. vec_ring; field; assumption. }
  rewrite E. unfold M, N, d, von_kries_mat, von_kries_mat_inv. cbn [mmul mapp FinXyz].
  intro F. injection F as _ _ F. lra.
Qed.
Print Assumptions C22_von_kries_refuted.
