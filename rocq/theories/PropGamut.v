(* C78-C79: the primaries of the built-in spaces, and which gamut lies inside which *)
From Coq Require Import Reals ZArith QArith Qreals Lra Lia List Bool.
From Verif Require Import Outcome RealOps MathModel ColorModel AdaptModel SpaceModel TransformModel
  XReal SpecLin MatProofs AdaptProofs SpaceProofs PropSpace PropTransform.
Import ListNotations.
Open Scope R_scope.

(* ---- C78 ---- *)
(* the chromaticity of the XYZ colour u is p, up to eps in x and in y *)
Definition chromaticity_near (eps : R) (u p : vec) : Prop :=
  let s := v0 u + v1 u + v2 u in
  0 < s /\ Rabs (v0 u / s - v0 p) <= eps /\ Rabs (v1 u / s - v1 p) <= eps.
(* pure red, green and blue have the given chromaticities, and these are also the listed ones *)
Definition has_primaries (eps : R) (s : color_space xr) (r g b : vec) : Prop :=
  exists n, xf_rgb_to_xyz s = FinM n
    /\ chromaticity_near eps (mapp n (1, 0, 0)) r
    /\ chromaticity_near eps (mapp n (0, 1, 0)) g
    /\ chromaticity_near eps (mapp n (0, 0, 1)) b
    /\ cs_red s = FinXyy r /\ cs_green s = FinXyy g /\ cs_blue s = FinXyy b.

(* the record ColorSpaceRGB::new builds *)
Definition built (s : color_space xr) (r g b w : vec) (a b' c : R) : Prop :=
  white_is_mix r g b w a b' c /\ xf_xyz_to_rgb s = FinM (space_fwd r g b a b' c) /\ xf_rgb_to_xyz s = FinM (space_bwd r g b a b' c)
  /\ cs_red s = FinXyy r /\ cs_green s = FinXyy g /\ cs_blue s = FinXyy b /\ cs_white s = FinXyy w.

Lemma built_new (K : XConst) (KO : XConstOk K) red green blue white a b c o e :
  white_is_mix red green blue white a b c ->
  0 < b * mdet (mcols (chroma red) (chroma green) (chroma blue)) ->
  xeps * (b * mdet (mcols (chroma red) (chroma green) (chroma blue))) < v0 blue * v1 red - v0 red * v1 blue ->
  mall (fun x => Rabs x <= 1000) (space_bwd red green blue a b c) ->
  exists s, cs_new (FinXyy red) (FinXyy green) (FinXyy blue) (FinXyy white) o e = Ret s /\ built s red green blue white a b c.
Proof.
  intros H H1 H2 HB. eexists. split.
  - apply (cs_new_fin _ _ _ _ a b c); [exact H| |].
    + apply general_of; try assumption. apply H.
    + unfold not_huge. assert (L : 1000 < / xtiny).
      { rewrite <- (Rinv_inv 1000). apply Rinv_lt_contravar; [|apply xtiny_small].
        apply Rmult_lt_0_compat; [apply xtiny_pos | lra]. }
      destruct (space_bwd red green blue a b c); cbn [mall] in *.
      repeat match goal with X : _ /\ _ |- _ => destruct X end. repeat split; lra.
  - repeat split; try reflexivity; apply H.
Qed.

Lemma built_primaries s r g b w a b' c : built s r g b w a b' c -> 0 < a -> 0 < b' -> 0 < c -> has_primaries 0 s r g b.
Proof.
  intros (H & _ & N & E1 & E2 & E3 & _) Ha Hb Hc. exists (space_bwd r g b a b' c). split; [exact N|].
  destruct r as [[xr yr] Yr], g as [[xg yg] Yg], b as [[xb yb] Yb].
  unfold space_bwd, mcols, chroma, vscale, chromaticity_near, v0, v1, v2. cbn [mapp fst snd].
  assert (G : forall k x y, 0 < k -> 0 < k * x + k * y + k * (1 - x - y)
     /\ Rabs (k * x / (k * x + k * y + k * (1 - x - y)) - x) <= 0 /\ Rabs (k * y / (k * x + k * y + k * (1 - x - y)) - y) <= 0).
  { intros k x y Hk. replace (k * x + k * y + k * (1 - x - y)) with k by ring. split; [exact Hk|].
    split; [replace (k * x / k - x) with 0 by (field; lra)|replace (k * y / k - y) with 0 by (field; lra)]; rewrite Rabs_R0; lra. }
  repeat match goal with |- _ /\ _ => split end; try assumption.
  all: match goal with |- context [?k * ?x * 1] => idtac | |- _ => idtac end.
  all: rewrite ?Rmult_1_r, ?Rmult_0_r, ?Rplus_0_r, ?Rplus_0_l; apply G; assumption.
Qed.

Ltac builtin2 a b c :=
  rewrite ?(lxy_fin _ 0.64 0.33 0.64 0.33), ?(lxy_fin _ 0.30 0.60 0.3 0.6), ?(lxy_fin _ 0.15 0.06 0.15 0.06),
    ?(lxy_fin _ 0.3127 0.3290 0.3127 0.3290), ?(lxy_fin _ 0.708 0.292 0.708 0.292),
    ?(lxy_fin _ 0.17 0.797 0.17 0.797), ?(lxy_fin _ 0.131 0.046 0.131 0.046), ?(lxy_fin _ 0.680 0.320 0.68 0.32),
    ?(lxy_fin _ 0.265 0.690 0.265 0.69), ?(lxy_fin _ 0.150 0.060 0.15 0.06), ?(lxy_fin _ 0.314 0.351 0.314 0.351),
    ?(lxy_fin _ 0.713 0.293 0.713 0.293), ?(lxy_fin _ 0.165 0.830 0.165 0.83), ?(lxy_fin _ 0.128 0.044 0.128 0.044),
    ?(lxy_fin _ 0.32168 0.33767 0.32168 0.33767) by (q2r; lra);
  match goal with KO : XConstOk ?K |- _ => pose proof (@xeps_small K KO); pose proof (@xeps_pos K KO) end;
  apply (built_new _ _ _ _ _ _ a b c);
  unfold white_is_mix, white1, space_bwd, mcols, chroma, vadd, vscale, v0, v1, v2, mdet; cbn [fst snd mall];
  [ repeat split; try lra; repeat (apply f_equal2; [|lra]); lra
  | lra
  | match goal with KO : XConstOk ?K |- ?e * ?k < _ =>
      apply Rle_lt_trans with (/ 1000 * k); [apply Rmult_le_compat_r; lra | lra] end
  | repeat split; apply Rabs_le; lra ].

Section Builtins.
Context {K : XConst} {KO : XConstOk K}.
Lemma srgb_built : exists s, SRGB_DRV = Ret s /\ built s (0.64, 0.33, 1) (0.3, 0.6, 1) (0.15, 0.06, 1) D65 (158360/245763) (878810/737289) (126730/105327).
Proof. unfold SRGB_DRV, D65. builtin2 (158360/245763) (878810/737289) (126730/105327). Qed.
Lemma bt709_built : exists s, ITUR_BT709 = Ret s /\ built s (0.64, 0.33, 1) (0.3, 0.6, 1) (0.15, 0.06, 1) D65 (158360/245763) (878810/737289) (126730/105327).
Proof. unfold ITUR_BT709, D65. builtin2 (158360/245763) (878810/737289) (126730/105327). Qed.
Lemma bt2020_built : exists s, ITUR_BT2020 = Ret s /\ built s (0.708, 0.292, 1) (0.17, 0.797, 1) (0.131, 0.046, 1) D65 (17917100/19915451) (118592800/139408157) (179720500/139408157).
Proof. unfold ITUR_BT2020, D65. builtin2 (17917100/19915451) (118592800/139408157) (179720500/139408157). Qed.
Lemma p3_built : exists s, DCI_P3 = Ret s /\ built s (0.68, 0.32, 1) (0.265, 0.69, 1) (0.15, 0.06, 1) (0.314, 0.351, 1) (23285/35568) (55795/53352) (122555/106704).
Proof. unfold DCI_P3. builtin2 (23285/35568) (55795/53352) (122555/106704). Qed.
Lemma p3d65_built : exists s, DCI_P3_D65 = Ret s /\ built s (0.68, 0.32, 1) (0.265, 0.69, 1) (0.15, 0.06, 1) D65 (35783/50008) (3581/3572) (66083/50008).
Proof. unfold DCI_P3_D65, D65. builtin2 (35783/50008) (3581/3572) (66083/50008). Qed.
Lemma acescg_built : exists s, ACES_CG = Ret s /\ built s (0.713, 0.293, 1) (0.165, 0.83, 1) (0.128, 0.044, 1) (0.32168, 0.33767, 1) (4712223000/5071769633) (4119021000/5071769633) (6188656000/5071769633).
Proof. unfold ACES_CG. builtin2 (4712223000/5071769633) (4119021000/5071769633) (6188656000/5071769633). Qed.
End Builtins.

Theorem C78_primaries_exact : forall (K : XConst) (KO : XConstOk K),
  (exists s, SRGB_DRV = Ret s /\ has_primaries 0 s (0.64, 0.33, 1) (0.3, 0.6, 1) (0.15, 0.06, 1))
  /\ (exists s, ITUR_BT709 = Ret s /\ has_primaries 0 s (0.64, 0.33, 1) (0.3, 0.6, 1) (0.15, 0.06, 1))
  /\ (exists s, ITUR_BT2020 = Ret s /\ has_primaries 0 s (0.708, 0.292, 1) (0.17, 0.797, 1) (0.131, 0.046, 1))
  /\ (exists s, DCI_P3 = Ret s /\ has_primaries 0 s (0.68, 0.32, 1) (0.265, 0.69, 1) (0.15, 0.06, 1))
  /\ (exists s, DCI_P3_D65 = Ret s /\ has_primaries 0 s (0.68, 0.32, 1) (0.265, 0.69, 1) (0.15, 0.06, 1))
  /\ (exists s, ACES_CG = Ret s /\ has_primaries 0 s (0.713, 0.293, 1) (0.165, 0.83, 1) (0.128, 0.044, 1)).
Proof.
  intros K KO. repeat match goal with |- _ /\ _ => split end.
  - destruct srgb_built as (s & E & B). exists s. split; [exact E|]. apply (built_primaries _ _ _ _ _ _ _ _ B); lra.
  - destruct bt709_built as (s & E & B). exists s. split; [exact E|]. apply (built_primaries _ _ _ _ _ _ _ _ B); lra.
  - destruct bt2020_built as (s & E & B). exists s. split; [exact E|]. apply (built_primaries _ _ _ _ _ _ _ _ B); lra.
  - destruct p3_built as (s & E & B). exists s. split; [exact E|]. apply (built_primaries _ _ _ _ _ _ _ _ B); lra.
  - destruct p3d65_built as (s & E & B). exists s. split; [exact E|]. apply (built_primaries _ _ _ _ _ _ _ _ B); lra.
  - destruct acescg_built as (s & E & B). exists s. split; [exact E|]. apply (built_primaries _ _ _ _ _ _ _ _ B); lra.
Qed.
Print Assumptions C78_primaries_exact.

Ltac specified2 q :=
  exists q; unfold SRGB, ACES, ADOBE_RGB_1998, ALEXA_WIDE_GAMUT, cs_new_with_specified_matrices; cbn [xf_xyz_to_rgb xf_rgb_to_xyz cs_red cs_green cs_blue];
  split; [unfold FinM; xs; f_equal; apply (f_equal Fin); q2r; lra|];
  unfold chromaticity_near, v0, v1, v2; cbn [mapp fst snd];
  repeat match goal with |- _ /\ _ => split end; try lra; try (apply Rabs_le; lra);
  try (apply lxy_fin; q2r; lra); unfold FinXyy; xs; f_equal; apply (f_equal Fin); q2r; lra.

Theorem C78_primaries_specified : forall (K : XConst),
  has_primaries 0.0001 SRGB (0.64, 0.33, 1) (0.3, 0.6, 1) (0.15, 0.06, 1)
  /\ has_primaries 0.0000000001 ACES (0.7347, 0.2653, 1) (0, 1, 1) (0.0001, -0.077, 1)
  /\ has_primaries 0.00001 ADOBE_RGB_1998 (0.64, 0.33, 1) (0.21, 0.71, 1) (0.15, 0.06, 1)
  /\ has_primaries 0.000001 ALEXA_WIDE_GAMUT (0.684, 0.313, 1) (0.221, 0.848, 1) (0.0861, -0.102, 1).
Proof.
  intro K. repeat match goal with |- _ /\ _ => split end.
  - specified2 (M3 0.4124 0.3576 0.1805 0.2126 0.7152 0.0722 0.0193 0.1192 0.9505).
  - specified2 (M3 0.9525523959 0 0.0000936786 0.3439664498 0.7281660966 (-0.0721325464) 0 0 1.0088251844).
  - specified2 (M3 0.57667 0.18556 0.18823 0.29734 0.62736 0.07529 0.02703 0.07069 0.99134).
  - specified2 (M3 0.638008 0.214704 0.097744 0.291954 0.823841 (-0.115795) 0.002798 (-0.067034) 1.153294).
Qed.
Print Assumptions C78_primaries_specified.
(* BT.2020 does not have the primaries of BT.709 *)
Example C78_example (K : XConst) (KO : XConstOk K) : exists s, ITUR_BT2020 = Ret s
  /\ has_primaries 0 s (0.708, 0.292, 1) (0.17, 0.797, 1) (0.131, 0.046, 1)
  /\ ~ has_primaries 0.05 s (0.64, 0.33, 1) (0.3, 0.6, 1) (0.15, 0.06, 1).
Proof.
  destruct (C78_primaries_exact K KO) as (_ & _ & (s & E & H) & _). exists s. split; [exact E|]. split; [exact H|].
  destruct H as (n & N & R1 & _). intros (n' & N' & R2 & _). rewrite N in N'. unfold FinM in N'.
  assert (n = n') as <-. { destruct n, n'. injection N'. intros. congruence. }
  destruct R1 as (_ & A & _), R2 as (_ & B & _). revert A B. generalize (v0 (mapp n (1, 0, 0)) / (v0 (mapp n (1, 0, 0)) + v1 (mapp n (1, 0, 0)) + v2 (mapp n (1, 0, 0)))).
  intros x A B. unfold v0 in A, B. cbn [fst] in A, B. revert A B. unfold Rabs. destruct (Rcase_abs (x - 0.708)), (Rcase_abs (x - 0.64)); lra.
Qed.


(* ---- C79 ---- *)
Definition in_cube (v : vec) : Prop := 0 <= v0 v <= 1 /\ 0 <= v1 v <= 1 /\ 0 <= v2 v <= 1.
(* every colour of the unit cube of A converts to a colour of the unit cube of B *)
Definition gamut_within (K : XConst) (A B : outcome (color_space xr)) : Prop :=
  exists a b m, A = Ret a /\ B = Ret b /\ rgb_to_rgb_matrix a b = Ret m
    /\ forall v, in_cube v -> exists w, mat_mul_rgb m (FinRgb v) = FinRgb w /\ in_cube w.
(* some colour of the unit cube of A converts to a colour with a channel below -d *)
Definition gamut_leaves (K : XConst) (d : R) (A B : outcome (color_space xr)) : Prop :=
  exists a b m v w, A = Ret a /\ B = Ret b /\ rgb_to_rgb_matrix a b = Ret m
    /\ in_cube v /\ mat_mul_rgb m (FinRgb v) = FinRgb w /\ (v0 w < - d \/ v1 w < - d \/ v2 w < - d).

Lemma basis_ext p q : mapp p (1, 0, 0) = mapp q (1, 0, 0) -> mapp p (0, 1, 0) = mapp q (0, 1, 0) ->
  mapp p (0, 0, 1) = mapp q (0, 0, 1) -> p = q.
Proof.
  destruct p, q. cbn. intros A B C. injection A as A1 A2 A3. injection B as B1 B2 B3. injection C as C1 C2 C3.
  f_equal; lra.
Qed.
Lemma mapp_inj p u v : mdet p <> 0 -> mapp p u = mapp p v -> u = v.
Proof.
  intros H E. rewrite <- (mapp_one u), <- (mapp_one v), <- (minv_l p H), !mapp_mul, E. reflexivity.
Qed.

Section Gamut.
Context {K : XConst} {KO : XConstOk K}.
Definition conv_goal (M nx ny : RM) (a b k : vec) : Prop :=
  mapp cat02_mat (mapp ny (mapp M k))
  = pmul (pdiv (mapp cat02_mat (vscale (100 * v2 b) (white1 b))) (mapp cat02_mat (vscale (100 * v2 a) (white1 a))))
      (mapp cat02_mat (mapp nx k)).
Lemma conv_is M nx ny my a b : is_inverse ny my -> usable' a ->
  conv_goal M nx ny a b (1, 0, 0) -> conv_goal M nx ny a b (0, 1, 0) -> conv_goal M nx ny a b (0, 0, 1) ->
  mmul (mmul my (cat a b)) nx = M.
Proof.
  intros [I1 I2] U G1 G2 G3.
  assert (S : forall k, conv_goal M nx ny a b k -> mapp (mmul (mmul my (cat a b)) nx) k = mapp M k).
  { intros k G. unfold conv_goal in G. rewrite <- (adapt_cone cat02_mat (minv cat02_mat)) in G by (apply minv_r, cat02_nz).
    apply mapp_inj in G; [|apply cat02_nz]. fold (cat a b) in G.
    rewrite !mapp_mul, <- G, <- (mapp_mul my ny), I2, mapp_one. reflexivity. }
  apply basis_ext; apply S; assumption.
Qed.
Lemma conv_matrix X Y rx gx bx wx ax bx' cx ry gy by_ wy ay by' cy M :
  built X rx gx bx wx ax bx' cx -> built Y ry gy by_ wy ay by' cy -> usable' wx ->
  let nx := space_bwd rx gx bx ax bx' cx in let ny := space_bwd ry gy by_ ay by' cy in
  conv_goal M nx ny wx wy (1, 0, 0) -> conv_goal M nx ny wx wy (0, 1, 0) -> conv_goal M nx ny wx wy (0, 0, 1) ->
  rgb_to_rgb_matrix X Y = Ret (FinM M).
Proof.
  intros (HX & X1 & X2 & _ & _ & _ & X3) (HY & Y1 & Y2 & _ & _ & _ & Y3) U nx ny G1 G2 G3.
  unfold rgb_to_rgb_matrix. rewrite X2, X3, Y1, Y3.
  rewrite (cat02_white _ _ U (proj1 HY)). cbn [obind]. rewrite !mat_mul_fin. do 2 f_equal.
  apply (conv_is M nx ny); try assumption. apply (space_inverse _ _ _ _ _ _ _ HY).
Qed.
Lemma rows_cube M v : match M with Mat33 a b c d e f g h i =>
    (0 <= a /\ 0 <= b /\ 0 <= c /\ a + b + c = 1) /\ (0 <= d /\ 0 <= e /\ 0 <= f /\ d + e + f = 1)
    /\ (0 <= g /\ 0 <= h /\ 0 <= i /\ g + h + i = 1) end ->
  in_cube v -> in_cube (mapp M v).
Proof.
  destruct M as [a b c d e f g h i], v as [[x y] z]. unfold in_cube, v0, v1, v2. cbn [mapp fst snd].
  intros (A & B & C) (X & Y & Z).
  assert (G : forall p q r, 0 <= p /\ 0 <= q /\ 0 <= r /\ p + q + r = 1 -> 0 <= p * x + q * y + r * z <= 1).
  { intros p q r (P & Q & R' & S). split.
    - repeat apply Rplus_le_le_0_compat; apply Rmult_le_pos; lra.
    - rewrite <- S. repeat apply Rplus_le_compat.
      + rewrite <- (Rmult_1_r p) at 2. apply Rmult_le_compat_l; lra.
      + rewrite <- (Rmult_1_r q) at 2. apply Rmult_le_compat_l; lra.
      + rewrite <- (Rmult_1_r r) at 2. apply Rmult_le_compat_l; lra. }
  repeat match goal with |- _ /\ _ => split end; apply G; assumption.
Qed.
End Gamut.



(* matrices and vectors with a common denominator *)
Definition zM (D a b c d e f g h i : Z) : RM :=
  M3 (IZR a / IZR D) (IZR b / IZR D) (IZR c / IZR D) (IZR d / IZR D) (IZR e / IZR D) (IZR f / IZR D)
     (IZR g / IZR D) (IZR h / IZR D) (IZR i / IZR D).
Definition zW (d x y z : Z) : vec := (100 * (IZR x / IZR d), 100 * (IZR y / IZR d), 100 * (IZR z / IZR d)).

Lemma conv_entry (p q r : Z) (n1 n2 n3 n4 n5 n6 n7 n8 n9 m1 m2 m3 x1 x2 x3 a1 a2 a3 b1 b2 b3 D Dx Dy da db : Z) :
  (D <> 0)%Z -> (Dx <> 0)%Z -> (Dy <> 0)%Z -> (da <> 0)%Z -> (db <> 0)%Z -> (p * a1 + q * a2 + r * a3 <> 0)%Z ->
  ((p * (n1 * m1 + n2 * m2 + n3 * m3) + q * (n4 * m1 + n5 * m2 + n6 * m3) + r * (n7 * m1 + n8 * m2 + n9 * m3))
    * (Dx * (p * a1 + q * a2 + r * a3) * db)
  = (p * b1 + q * b2 + r * b3) * da * (p * x1 + q * x2 + r * x3) * (Dy * D))%Z ->
  forall P Q R' : R, P = IZR p / 10000 -> Q = IZR q / 10000 -> R' = IZR r / 10000 ->
  P * (IZR n1 / IZR Dy * (IZR m1 / IZR D) + IZR n2 / IZR Dy * (IZR m2 / IZR D) + IZR n3 / IZR Dy * (IZR m3 / IZR D))
  + Q * (IZR n4 / IZR Dy * (IZR m1 / IZR D) + IZR n5 / IZR Dy * (IZR m2 / IZR D) + IZR n6 / IZR Dy * (IZR m3 / IZR D))
  + R' * (IZR n7 / IZR Dy * (IZR m1 / IZR D) + IZR n8 / IZR Dy * (IZR m2 / IZR D) + IZR n9 / IZR Dy * (IZR m3 / IZR D))
  = (P * (100 * (IZR b1 / IZR db)) + Q * (100 * (IZR b2 / IZR db)) + R' * (100 * (IZR b3 / IZR db)))
    / (P * (100 * (IZR a1 / IZR da)) + Q * (100 * (IZR a2 / IZR da)) + R' * (100 * (IZR a3 / IZR da)))
    * (P * (IZR x1 / IZR Dx) + Q * (IZR x2 / IZR Dx) + R' * (IZR x3 / IZR Dx)).
Proof.
  intros HD HDx HDy Hda Hdb N H P Q R' -> -> ->.
  apply (f_equal IZR) in H. rewrite !mult_IZR in H.
  apply not_0_IZR in HD, HDx, HDy, Hda, Hdb, N.
  set (A := (p * (n1 * m1 + n2 * m2 + n3 * m3) + q * (n4 * m1 + n5 * m2 + n6 * m3) + r * (n7 * m1 + n8 * m2 + n9 * m3))%Z) in H.
  set (ca := (p * a1 + q * a2 + r * a3)%Z) in *. set (cb := (p * b1 + q * b2 + r * b3)%Z) in *. set (X := (p * x1 + q * x2 + r * x3)%Z) in *.
  transitivity (IZR A / (10000 * IZR Dy * IZR D)).
  { unfold A. rewrite !plus_IZR, !mult_IZR, !plus_IZR, !mult_IZR. field. split; assumption. }
  transitivity ((IZR cb / IZR db) / (IZR ca / IZR da) * (IZR X / (10000 * IZR Dx))).
  - apply (Rmult_eq_reg_r (10000 * IZR Dy * IZR D * IZR Dx * IZR ca * IZR db)).
    + transitivity (IZR A * (IZR Dx * IZR ca * IZR db)); [field; auto|]. rewrite H. field. auto.
    + repeat apply Rmult_integral_contrapositive_currified; auto; lra.
  - f_equal; [|unfold X; rewrite !plus_IZR, !mult_IZR; field; assumption].
    assert (E : IZR p / 10000 * (100 * (IZR a1 / IZR da)) + IZR q / 10000 * (100 * (IZR a2 / IZR da)) + IZR r / 10000 * (100 * (IZR a3 / IZR da)) = IZR ca / IZR da / 100).
    { unfold ca. rewrite !plus_IZR, !mult_IZR. field. assumption. }
    assert (E' : IZR p / 10000 * (100 * (IZR b1 / IZR db)) + IZR q / 10000 * (100 * (IZR b2 / IZR db)) + IZR r / 10000 * (100 * (IZR b3 / IZR db)) = IZR cb / IZR db / 100).
    { unfold cb. rewrite !plus_IZR, !mult_IZR. field. assumption. }
    rewrite E, E'. field. auto.
Qed.
Lemma conv_Z (n1 n2 n3 n4 n5 n6 n7 n8 n9 m1 m2 m3 m4 m5 m6 m7 m8 m9 x1 x2 x3 x4 x5 x6 x7 x8 x9 a1 a2 a3 b1 b2 b3 D Dx Dy da db : Z) nx ny a b :
  nx = zM Dx x1 x2 x3 x4 x5 x6 x7 x8 x9 -> ny = zM Dy n1 n2 n3 n4 n5 n6 n7 n8 n9 ->
  vscale (100 * v2 a) (white1 a) = zW da a1 a2 a3 -> vscale (100 * v2 b) (white1 b) = zW db b1 b2 b3 ->
  (D <> 0)%Z -> (Dx <> 0)%Z -> (Dy <> 0)%Z -> (da <> 0)%Z -> (db <> 0)%Z ->
  (7328 * a1 + 4296 * a2 + (-1624) * a3 <> 0)%Z ->
  ((-7036) * a1 + 16975 * a2 + 61 * a3 <> 0)%Z ->
  (30 * a1 + 136 * a2 + 9834 * a3 <> 0)%Z ->
  ((7328 * (n1 * m1 + n2 * m4 + n3 * m7) + 4296 * (n4 * m1 + n5 * m4 + n6 * m7) + (-1624) * (n7 * m1 + n8 * m4 + n9 * m7)) * (Dx * (7328 * a1 + 4296 * a2 + (-1624) * a3) * db)
   = (7328 * b1 + 4296 * b2 + (-1624) * b3) * da * (7328 * x1 + 4296 * x4 + (-1624) * x7) * (Dy * D))%Z ->
  (((-7036) * (n1 * m1 + n2 * m4 + n3 * m7) + 16975 * (n4 * m1 + n5 * m4 + n6 * m7) + 61 * (n7 * m1 + n8 * m4 + n9 * m7)) * (Dx * ((-7036) * a1 + 16975 * a2 + 61 * a3) * db)
   = ((-7036) * b1 + 16975 * b2 + 61 * b3) * da * ((-7036) * x1 + 16975 * x4 + 61 * x7) * (Dy * D))%Z ->
  ((30 * (n1 * m1 + n2 * m4 + n3 * m7) + 136 * (n4 * m1 + n5 * m4 + n6 * m7) + 9834 * (n7 * m1 + n8 * m4 + n9 * m7)) * (Dx * (30 * a1 + 136 * a2 + 9834 * a3) * db)
   = (30 * b1 + 136 * b2 + 9834 * b3) * da * (30 * x1 + 136 * x4 + 9834 * x7) * (Dy * D))%Z ->
  ((7328 * (n1 * m2 + n2 * m5 + n3 * m8) + 4296 * (n4 * m2 + n5 * m5 + n6 * m8) + (-1624) * (n7 * m2 + n8 * m5 + n9 * m8)) * (Dx * (7328 * a1 + 4296 * a2 + (-1624) * a3) * db)
   = (7328 * b1 + 4296 * b2 + (-1624) * b3) * da * (7328 * x2 + 4296 * x5 + (-1624) * x8) * (Dy * D))%Z ->
  (((-7036) * (n1 * m2 + n2 * m5 + n3 * m8) + 16975 * (n4 * m2 + n5 * m5 + n6 * m8) + 61 * (n7 * m2 + n8 * m5 + n9 * m8)) * (Dx * ((-7036) * a1 + 16975 * a2 + 61 * a3) * db)
   = ((-7036) * b1 + 16975 * b2 + 61 * b3) * da * ((-7036) * x2 + 16975 * x5 + 61 * x8) * (Dy * D))%Z ->
  ((30 * (n1 * m2 + n2 * m5 + n3 * m8) + 136 * (n4 * m2 + n5 * m5 + n6 * m8) + 9834 * (n7 * m2 + n8 * m5 + n9 * m8)) * (Dx * (30 * a1 + 136 * a2 + 9834 * a3) * db)
   = (30 * b1 + 136 * b2 + 9834 * b3) * da * (30 * x2 + 136 * x5 + 9834 * x8) * (Dy * D))%Z ->
  ((7328 * (n1 * m3 + n2 * m6 + n3 * m9) + 4296 * (n4 * m3 + n5 * m6 + n6 * m9) + (-1624) * (n7 * m3 + n8 * m6 + n9 * m9)) * (Dx * (7328 * a1 + 4296 * a2 + (-1624) * a3) * db)
   = (7328 * b1 + 4296 * b2 + (-1624) * b3) * da * (7328 * x3 + 4296 * x6 + (-1624) * x9) * (Dy * D))%Z ->
  (((-7036) * (n1 * m3 + n2 * m6 + n3 * m9) + 16975 * (n4 * m3 + n5 * m6 + n6 * m9) + 61 * (n7 * m3 + n8 * m6 + n9 * m9)) * (Dx * ((-7036) * a1 + 16975 * a2 + 61 * a3) * db)
   = ((-7036) * b1 + 16975 * b2 + 61 * b3) * da * ((-7036) * x3 + 16975 * x6 + 61 * x9) * (Dy * D))%Z ->
  ((30 * (n1 * m3 + n2 * m6 + n3 * m9) + 136 * (n4 * m3 + n5 * m6 + n6 * m9) + 9834 * (n7 * m3 + n8 * m6 + n9 * m9)) * (Dx * (30 * a1 + 136 * a2 + 9834 * a3) * db)
   = (30 * b1 + 136 * b2 + 9834 * b3) * da * (30 * x3 + 136 * x6 + 9834 * x9) * (Dy * D))%Z ->
  let M := zM D m1 m2 m3 m4 m5 m6 m7 m8 m9 in
  conv_goal M nx ny a b (1, 0, 0) /\ conv_goal M nx ny a b (0, 1, 0) /\ conv_goal M nx ny a b (0, 0, 1).
Proof.
  intros -> -> Ea Eb HD HDx HDy Hda Hdb N1 N2 N3 H1 H2 H3 H4 H5 H6 H7 H8 H9 M. unfold conv_goal. rewrite Ea, Eb. clear Ea Eb. subst M.
  unfold zM, zW, cat02_mat, pmul, pdiv, v0, v1, v2. cbn [mapp fst snd]. rewrite !Rmult_1_r, !Rmult_0_r, !Rplus_0_r, !Rplus_0_l.
  repeat match goal with |- _ /\ _ => split end; apply f_equal2; try apply f_equal2.
  - apply (conv_entry 7328 4296 (-1624)); try assumption; lra.
  - apply (conv_entry (-7036) 16975 61); try assumption; lra.
  - apply (conv_entry 30 136 9834); try assumption; lra.
  - apply (conv_entry 7328 4296 (-1624)); try assumption; lra.
  - apply (conv_entry (-7036) 16975 61); try assumption; lra.
  - apply (conv_entry 30 136 9834); try assumption; lra.
  - apply (conv_entry 7328 4296 (-1624)); try assumption; lra.
  - apply (conv_entry (-7036) 16975 61); try assumption; lra.
  - apply (conv_entry 30 136 9834); try assumption; lra.
Qed.
Lemma zM_cube D a b c d e f g h i v :
  (0 < D /\ 0 <= a /\ 0 <= b /\ 0 <= c /\ a + b + c = D /\ 0 <= d /\ 0 <= e /\ 0 <= f /\ d + e + f = D
   /\ 0 <= g /\ 0 <= h /\ 0 <= i /\ g + h + i = D)%Z ->
  in_cube v -> in_cube (mapp (zM D a b c d e f g h i) v).
Proof.
  intros (HD & A & B & C & S & A' & B' & C' & S' & A'' & B'' & C'' & S'') V. apply rows_cube; [|exact V]. unfold zM.
  apply IZR_lt in HD.
  assert (N : forall z, (0 <= z)%Z -> 0 <= IZR z / IZR D).
  { intros z Hz. apply IZR_le in Hz. apply Rmult_le_pos; [exact Hz|]. left. apply Rinv_0_lt_compat. exact HD. }
  assert (T : forall x y z, (x + y + z = D)%Z -> IZR x / IZR D + IZR y / IZR D + IZR z / IZR D = 1).
  { intros x y z E. transitivity (IZR (x + y + z) / IZR D); [rewrite !plus_IZR; field; lra|]. rewrite E. field. lra. }
  repeat match goal with |- _ /\ _ => split end; auto.
Qed.
(* entry e of a matrix with denominator D is below -1/k *)
Lemma zM_below e k D : (0 < D)%Z -> (0 < k)%Z -> (k * e < - D)%Z -> IZR e / IZR D < - / IZR k.
Proof.
  intros HD Hk H. apply IZR_lt in HD, Hk, H. rewrite opp_IZR, mult_IZR in H.
  apply (Rmult_lt_reg_r (IZR D)); [exact HD|]. apply (Rmult_lt_reg_l (IZR k)); [exact Hk|].
  replace (IZR k * (IZR e / IZR D * IZR D)) with (IZR k * IZR e) by (field; lra).
  replace (IZR k * (- / IZR k * IZR D)) with (- IZR D) by (field; lra). exact H.
Qed.

Ltac usable := unfold usable', nonzero3, white1, D65, cat02_mat, v0, v1, v2; cbn [mapp fst snd]; repeat split; lra.

Definition N_709 : RM := zM 7372890 3040512 2636430 1330665 1567764 5272860 532266 142524 878810 7008169.
Definition N_2020 : RM := zM 1394081570 887971476 201607760 235433855 366225524 945184616 82671430 0 39135624 1479099715.
Definition N_P3 : RM := zM 2134080 950028 591427 367665 447072 1539942 147066 0 100431 1936369.
Definition N_P3D65 : RM := zM 5000800 2433244 1328551 991245 1145056 3459246 396498 0 225603 5220557.
Definition N_CG : RM := zM 5071769633 3359814999 679638465 792147968 1380681339 3418787430 272300864 (-28273338) 20595105 5124207168.
Definition M_709_2020 : RM := zM 14976266648612615003700 9396168041896453638840 4931430585612527315930 648668021103634048930 1034819430125226421830 13771282150820660494385 170165067666728087485 245482559348685406272 1318110767395770031264 13412673321868159566164.
Definition M_709_P3D65 : RM := zM 132834448385329383 109251281932084341 23583166453245042 0 4409333093960421 128425115291368962 0 2269161828810261 9616874095107202 120948412461411920.
Definition M_709_P3 : RM := zM 2019638851574034913595573949351824634546115640625 1769012445117503585193104891857616609210102060808 246536833423540869957064584276905691971353892270 4089573032990458445404473217302333364659687547 71357751998280716352890044724078838924068195928 1948025669489280083058213448842133626600180115070 255430086474114184470455785612169021867329627 33085869497054921530845672882808941007817258328 128785837975305075818941048855557125973737971070 1857767144101674916245787227613458567564560411227.
Definition M_709_CG : RM := zM 2539429096574914115374731393726134633737765343120070000000 1556880535116266304445685646819255008515516771575533196480 866369544340336385792039269831678908996810235976339531200 116179017118311425137006477075200716225438335568197272320 177769051243732500243184696167440634013671150138277790784 2331355464021549558836462008083482690520731148938785008960 30304581309632056295084689475211309203363044043007200256 52034877453626072648599211666435807316569411923317077565 271119576554899757290549846561016755586364244869044071725 2216274642566388285435582335498682070834831686327708850710.
Definition M_2020_CG : RM := zM 480160602132520340406104889628628383202857885826102910000000 468010478618641468592813649657358135927534147971469502598080 10387747281864554168786522341696997673965562615781635880320 1762376232014317644504717629573249601358175238851771521600 805949135537604847245395280786421369720063044006581024064 479073542570485828607432077790978044148826904588338858646656 281110426496906951427416556863917684310918193757470329280 2346186993327998077478331660609598089316188557756253419865 10146721481551513858759817098754001466281155550275318487210 467667693657640828469866740869264783647260541718071338092925.
Definition M_P3_CG : RM := zM 331833427768369853943657871806523234227386165760000000 228439390748497526796657932143653111533715768557926400 87404738201078753602570751247894277861499977384025280 15989298818793573544429188414975844832170419818048320 13782719188834339074903578360724274480783496608389120 313819180970466567063711913875670568439563749622869824 4231527609068947805042379570128391307038919528741056 1238787840261237343142446722079267211584003804579200 15759421793185040947650638472634992482442827760632715 314835218134923575652864786611808974533359334194788085.
Definition M_P3D65_CG : RM := zM 1722415094508643219709768727560787435645427631210400000000 1267254848100886801407883290785789575624603653653627123520 368615646659930625476544734668601934709130483747062915520 86544599747825792825340702106395925311693493809709960960 80789684775448827136336963672426973749252030093904865216 1619050783737721281277785434407344703466151815571364938816 22574625995473111295646329481015758430023785545130195968 5978893159642909658518182872438686394385490961921382435 65478854405389742405303734520957926388283493320882445935 1650957346943610567645946810167390822862758646927596171630.
Definition M_2020_709 : RM := zM 13078268659885965277 21716347432897377967 (-7685328688677986150) (-952750084333426540) (-1628904567509645594) 14816369219370479656 (-109195991974868785) (-237380559537464672) (-1315397849663989856) 14631047069087419805.
Definition M_P3D65_709 : RM := zM 46913901827392880 57466723174455518 (-10552821347062638) 0 (-1973055844409419) 48886957671802299 0 (-921274308181018) (-3689123721056739) 51524299856630637.
Definition M_P3D65_2020 : RM := zM 10157931863405254264000 7657384599430401990990 2017338543088023707720 483208720886828565290 464662900960010854255 9566508829354415979040 126760133090827430705 (-12294554852726899368) 178797045023392571076 9991429373234588592292.
Definition M_CG_2020 : RM := zM 3848918605638045633555715002897077765891400767487797650000000 3949062495555715759866639499643639703426057046901297402344830 (-85313377793464066077951343100946567398458154137027228631550) (-14830512124206060232973153645615370136198125276472523713280) (-6631997861996221506861992554042494266574718120335660373815) 3857844523431837000738002015977826516228044301711663067614775 (-2293919931795145675425020526706256070068816103529757240960) (-19667695999702132224502446172873794227119563005808065648616) (-83273472359126044326370855360522903883972634411432749548440) 3951859773996873810106588304430474464002492964905038465197056.
Lemma bwd_709 : space_bwd (0.64, 0.33, 1) (0.3, 0.6, 1) (0.15, 0.06, 1) (158360/245763) (878810/737289) (126730/105327) = N_709.
Proof. unfold N_709, zM, space_bwd, mcols, chroma, vscale, v0, v1, v2. cbn [fst snd]. f_equal; lra. Qed.
Lemma bwd_2020 : space_bwd (0.708, 0.292, 1) (0.17, 0.797, 1) (0.131, 0.046, 1) (17917100/19915451) (118592800/139408157) (179720500/139408157) = N_2020.
Proof. unfold N_2020, zM, space_bwd, mcols, chroma, vscale, v0, v1, v2. cbn [fst snd]. f_equal; lra. Qed.
Lemma bwd_P3 : space_bwd (0.68, 0.32, 1) (0.265, 0.69, 1) (0.15, 0.06, 1) (23285/35568) (55795/53352) (122555/106704) = N_P3.
Proof. unfold N_P3, zM, space_bwd, mcols, chroma, vscale, v0, v1, v2. cbn [fst snd]. f_equal; lra. Qed.
Lemma bwd_P3D65 : space_bwd (0.68, 0.32, 1) (0.265, 0.69, 1) (0.15, 0.06, 1) (35783/50008) (3581/3572) (66083/50008) = N_P3D65.
Proof. unfold N_P3D65, zM, space_bwd, mcols, chroma, vscale, v0, v1, v2. cbn [fst snd]. f_equal; lra. Qed.
Lemma bwd_CG : space_bwd (0.713, 0.293, 1) (0.165, 0.83, 1) (0.128, 0.044, 1) (4712223000/5071769633) (4119021000/5071769633) (6188656000/5071769633) = N_CG.
Proof. unfold N_CG, zM, space_bwd, mcols, chroma, vscale, v0, v1, v2. cbn [fst snd]. f_equal; lra. Qed.
Lemma white_d65 : vscale (100 * v2 D65) (white1 D65) = zW 3290 3127 3290 3583.
Proof. unfold zW, vscale, white1, D65, v0, v1, v2. cbn [fst snd]. apply f_equal2; [apply f_equal2|]; lra. Qed.
Lemma white_dci : vscale (100 * v2 (0.314, 0.351, 1)) (white1 (0.314, 0.351, 1)) = zW 351 314 351 335.
Proof. unfold zW, vscale, white1, D65, v0, v1, v2. cbn [fst snd]. apply f_equal2; [apply f_equal2|]; lra. Qed.
Lemma white_d60 : vscale (100 * v2 (0.32168, 0.33767, 1)) (white1 (0.32168, 0.33767, 1)) = zW 33767 32168 33767 34065.
Proof. unfold zW, vscale, white1, D65, v0, v1, v2. cbn [fst snd]. apply f_equal2; [apply f_equal2|]; lra. Qed.

Ltac zdec := solve [apply Z.eqb_neq; reflexivity | apply Z.eqb_eq; reflexivity | reflexivity | discriminate].

Section Conversions.
Context {K : XConst} {KO : XConstOk K}.
Lemma conv_709_2020 : exists a b, ITUR_BT709 = Ret a /\ ITUR_BT2020 = Ret b /\ rgb_to_rgb_matrix a b = Ret (FinM M_709_2020).
Proof.
  destruct bt709_built as (a & E & B), bt2020_built as (b & E' & B'). exists a, b. split; [exact E|]. split; [exact E'|].
  edestruct (conv_Z) as (G1 & G2 & G3); [exact bwd_709|exact bwd_2020|exact white_d65|exact white_d65|..|
    apply (conv_matrix _ _ _ _ _ _ _ _ _ _ _ _ _ _ _ _ M_709_2020 B B'); [usable|exact G1|exact G2|exact G3]]; zdec.
Qed.
Lemma conv_709_P3D65 : exists a b, ITUR_BT709 = Ret a /\ DCI_P3_D65 = Ret b /\ rgb_to_rgb_matrix a b = Ret (FinM M_709_P3D65).
Proof.
  destruct bt709_built as (a & E & B), p3d65_built as (b & E' & B'). exists a, b. split; [exact E|]. split; [exact E'|].
  edestruct (conv_Z) as (G1 & G2 & G3); [exact bwd_709|exact bwd_P3D65|exact white_d65|exact white_d65|..|
    apply (conv_matrix _ _ _ _ _ _ _ _ _ _ _ _ _ _ _ _ M_709_P3D65 B B'); [usable|exact G1|exact G2|exact G3]]; zdec.
Qed.
Lemma conv_709_P3 : exists a b, ITUR_BT709 = Ret a /\ DCI_P3 = Ret b /\ rgb_to_rgb_matrix a b = Ret (FinM M_709_P3).
Proof.
  destruct bt709_built as (a & E & B), p3_built as (b & E' & B'). exists a, b. split; [exact E|]. split; [exact E'|].
  edestruct (conv_Z) as (G1 & G2 & G3); [exact bwd_709|exact bwd_P3|exact white_d65|exact white_dci|..|
    apply (conv_matrix _ _ _ _ _ _ _ _ _ _ _ _ _ _ _ _ M_709_P3 B B'); [usable|exact G1|exact G2|exact G3]]; zdec.
Qed.
Lemma conv_709_CG : exists a b, ITUR_BT709 = Ret a /\ ACES_CG = Ret b /\ rgb_to_rgb_matrix a b = Ret (FinM M_709_CG).
Proof.
  destruct bt709_built as (a & E & B), acescg_built as (b & E' & B'). exists a, b. split; [exact E|]. split; [exact E'|].
  edestruct (conv_Z) as (G1 & G2 & G3); [exact bwd_709|exact bwd_CG|exact white_d65|exact white_d60|..|
    apply (conv_matrix _ _ _ _ _ _ _ _ _ _ _ _ _ _ _ _ M_709_CG B B'); [usable|exact G1|exact G2|exact G3]]; zdec.
Qed.
Lemma conv_2020_CG : exists a b, ITUR_BT2020 = Ret a /\ ACES_CG = Ret b /\ rgb_to_rgb_matrix a b = Ret (FinM M_2020_CG).
Proof.
  destruct bt2020_built as (a & E & B), acescg_built as (b & E' & B'). exists a, b. split; [exact E|]. split; [exact E'|].
  edestruct (conv_Z) as (G1 & G2 & G3); [exact bwd_2020|exact bwd_CG|exact white_d65|exact white_d60|..|
    apply (conv_matrix _ _ _ _ _ _ _ _ _ _ _ _ _ _ _ _ M_2020_CG B B'); [usable|exact G1|exact G2|exact G3]]; zdec.
Qed.
Lemma conv_P3_CG : exists a b, DCI_P3 = Ret a /\ ACES_CG = Ret b /\ rgb_to_rgb_matrix a b = Ret (FinM M_P3_CG).
Proof.
  destruct p3_built as (a & E & B), acescg_built as (b & E' & B'). exists a, b. split; [exact E|]. split; [exact E'|].
  edestruct (conv_Z) as (G1 & G2 & G3); [exact bwd_P3|exact bwd_CG|exact white_dci|exact white_d60|..|
    apply (conv_matrix _ _ _ _ _ _ _ _ _ _ _ _ _ _ _ _ M_P3_CG B B'); [usable|exact G1|exact G2|exact G3]]; zdec.
Qed.
Lemma conv_P3D65_CG : exists a b, DCI_P3_D65 = Ret a /\ ACES_CG = Ret b /\ rgb_to_rgb_matrix a b = Ret (FinM M_P3D65_CG).
Proof.
  destruct p3d65_built as (a & E & B), acescg_built as (b & E' & B'). exists a, b. split; [exact E|]. split; [exact E'|].
  edestruct (conv_Z) as (G1 & G2 & G3); [exact bwd_P3D65|exact bwd_CG|exact white_d65|exact white_d60|..|
    apply (conv_matrix _ _ _ _ _ _ _ _ _ _ _ _ _ _ _ _ M_P3D65_CG B B'); [usable|exact G1|exact G2|exact G3]]; zdec.
Qed.
Lemma conv_2020_709 : exists a b, ITUR_BT2020 = Ret a /\ ITUR_BT709 = Ret b /\ rgb_to_rgb_matrix a b = Ret (FinM M_2020_709).
Proof.
  destruct bt2020_built as (a & E & B), bt709_built as (b & E' & B'). exists a, b. split; [exact E|]. split; [exact E'|].
  edestruct (conv_Z) as (G1 & G2 & G3); [exact bwd_2020|exact bwd_709|exact white_d65|exact white_d65|..|
    apply (conv_matrix _ _ _ _ _ _ _ _ _ _ _ _ _ _ _ _ M_2020_709 B B'); [usable|exact G1|exact G2|exact G3]]; zdec.
Qed.
Lemma conv_P3D65_709 : exists a b, DCI_P3_D65 = Ret a /\ ITUR_BT709 = Ret b /\ rgb_to_rgb_matrix a b = Ret (FinM M_P3D65_709).
Proof.
  destruct p3d65_built as (a & E & B), bt709_built as (b & E' & B'). exists a, b. split; [exact E|]. split; [exact E'|].
  edestruct (conv_Z) as (G1 & G2 & G3); [exact bwd_P3D65|exact bwd_709|exact white_d65|exact white_d65|..|
    apply (conv_matrix _ _ _ _ _ _ _ _ _ _ _ _ _ _ _ _ M_P3D65_709 B B'); [usable|exact G1|exact G2|exact G3]]; zdec.
Qed.
Lemma conv_P3D65_2020 : exists a b, DCI_P3_D65 = Ret a /\ ITUR_BT2020 = Ret b /\ rgb_to_rgb_matrix a b = Ret (FinM M_P3D65_2020).
Proof.
  destruct p3d65_built as (a & E & B), bt2020_built as (b & E' & B'). exists a, b. split; [exact E|]. split; [exact E'|].
  edestruct (conv_Z) as (G1 & G2 & G3); [exact bwd_P3D65|exact bwd_2020|exact white_d65|exact white_d65|..|
    apply (conv_matrix _ _ _ _ _ _ _ _ _ _ _ _ _ _ _ _ M_P3D65_2020 B B'); [usable|exact G1|exact G2|exact G3]]; zdec.
Qed.
Lemma conv_CG_2020 : exists a b, ACES_CG = Ret a /\ ITUR_BT2020 = Ret b /\ rgb_to_rgb_matrix a b = Ret (FinM M_CG_2020).
Proof.
  destruct acescg_built as (a & E & B), bt2020_built as (b & E' & B'). exists a, b. split; [exact E|]. split; [exact E'|].
  edestruct (conv_Z) as (G1 & G2 & G3); [exact bwd_CG|exact bwd_2020|exact white_d60|exact white_d65|..|
    apply (conv_matrix _ _ _ _ _ _ _ _ _ _ _ _ _ _ _ _ M_CG_2020 B B'); [usable|exact G1|exact G2|exact G3]]; zdec.
Qed.
End Conversions.

Theorem C79_gamut_inclusions : forall (K : XConst) (KO : XConstOk K),
  gamut_within K ITUR_BT709 ITUR_BT2020
  /\ gamut_within K ITUR_BT709 DCI_P3_D65
  /\ gamut_within K ITUR_BT709 DCI_P3
  /\ gamut_within K ITUR_BT709 ACES_CG
  /\ gamut_within K ITUR_BT2020 ACES_CG
  /\ gamut_within K DCI_P3 ACES_CG
  /\ gamut_within K DCI_P3_D65 ACES_CG.
Proof.
  intros K KO. repeat match goal with |- _ /\ _ => split end.
  - destruct conv_709_2020 as (a & b & E & E' & M). exists a, b. eexists. split; [exact E|]. split; [exact E'|]. split; [exact M|].
    intros v V. exists (mapp M_709_2020 v). split; [apply mat_mul_rgb_fin|]. apply zM_cube; [|exact V]. repeat split; try zdec.
  - destruct conv_709_P3D65 as (a & b & E & E' & M). exists a, b. eexists. split; [exact E|]. split; [exact E'|]. split; [exact M|].
    intros v V. exists (mapp M_709_P3D65 v). split; [apply mat_mul_rgb_fin|]. apply zM_cube; [|exact V]. repeat split; try zdec.
  - destruct conv_709_P3 as (a & b & E & E' & M). exists a, b. eexists. split; [exact E|]. split; [exact E'|]. split; [exact M|].
    intros v V. exists (mapp M_709_P3 v). split; [apply mat_mul_rgb_fin|]. apply zM_cube; [|exact V]. repeat split; try zdec.
  - destruct conv_709_CG as (a & b & E & E' & M). exists a, b. eexists. split; [exact E|]. split; [exact E'|]. split; [exact M|].
    intros v V. exists (mapp M_709_CG v). split; [apply mat_mul_rgb_fin|]. apply zM_cube; [|exact V]. repeat split; try zdec.
  - destruct conv_2020_CG as (a & b & E & E' & M). exists a, b. eexists. split; [exact E|]. split; [exact E'|]. split; [exact M|].
    intros v V. exists (mapp M_2020_CG v). split; [apply mat_mul_rgb_fin|]. apply zM_cube; [|exact V]. repeat split; try zdec.
  - destruct conv_P3_CG as (a & b & E & E' & M). exists a, b. eexists. split; [exact E|]. split; [exact E'|]. split; [exact M|].
    intros v V. exists (mapp M_P3_CG v). split; [apply mat_mul_rgb_fin|]. apply zM_cube; [|exact V]. repeat split; try zdec.
  - destruct conv_P3D65_CG as (a & b & E & E' & M). exists a, b. eexists. split; [exact E|]. split; [exact E'|]. split; [exact M|].
    intros v V. exists (mapp M_P3D65_CG v). split; [apply mat_mul_rgb_fin|]. apply zM_cube; [|exact V]. repeat split; try zdec.
Qed.
Print Assumptions C79_gamut_inclusions.

(* the larger gamuts do not fit in the smaller ones; P3 does not quite fit in BT.2020 *)
Theorem C79_gamut_exclusions : forall (K : XConst) (KO : XConstOk K),
  gamut_leaves K 0.5 ITUR_BT2020 ITUR_BT709
  /\ gamut_leaves K 0.2 DCI_P3_D65 ITUR_BT709
  /\ gamut_leaves K 0.001 DCI_P3_D65 ITUR_BT2020
  /\ gamut_leaves K 0.02 ACES_CG ITUR_BT2020.
Proof.
  intros K KO. repeat match goal with |- _ /\ _ => split end.
  - destruct conv_2020_709 as (a & b & E & E' & M). exists a, b. eexists. exists (0, 1, 0), (mapp M_2020_709 (0, 1, 0)). split; [exact E|]. split; [exact E'|]. split; [exact M|].
    split; [unfold in_cube, v0, v1, v2; cbn [fst snd]; lra|]. split; [apply mat_mul_rgb_fin|].
    left. pose proof (zM_below (-7685328688677986150) 2 13078268659885965277 eq_refl eq_refl eq_refl) as H.
    unfold M_2020_709, zM, v0, v1, v2. cbn [mapp fst snd]. rewrite !Rmult_1_r, !Rmult_0_r, ?Rplus_0_r, ?Rplus_0_l.
    eapply Rlt_le_trans; [exact H|]. clear. lra.
  - destruct conv_P3D65_709 as (a & b & E & E' & M). exists a, b. eexists. exists (0, 1, 0), (mapp M_P3D65_709 (0, 1, 0)). split; [exact E|]. split; [exact E'|]. split; [exact M|].
    split; [unfold in_cube, v0, v1, v2; cbn [fst snd]; lra|]. split; [apply mat_mul_rgb_fin|].
    left. pose proof (zM_below (-10552821347062638) 5 46913901827392880 eq_refl eq_refl eq_refl) as H.
    unfold M_P3D65_709, zM, v0, v1, v2. cbn [mapp fst snd]. rewrite !Rmult_1_r, !Rmult_0_r, ?Rplus_0_r, ?Rplus_0_l.
    eapply Rlt_le_trans; [exact H|]. clear. lra.
  - destruct conv_P3D65_2020 as (a & b & E & E' & M). exists a, b. eexists. exists (1, 0, 0), (mapp M_P3D65_2020 (1, 0, 0)). split; [exact E|]. split; [exact E'|]. split; [exact M|].
    split; [unfold in_cube, v0, v1, v2; cbn [fst snd]; lra|]. split; [apply mat_mul_rgb_fin|].
    right; right. pose proof (zM_below (-12294554852726899368) 1000 10157931863405254264000 eq_refl eq_refl eq_refl) as H.
    unfold M_P3D65_2020, zM, v0, v1, v2. cbn [mapp fst snd]. rewrite !Rmult_1_r, !Rmult_0_r, ?Rplus_0_r, ?Rplus_0_l.
    eapply Rlt_le_trans; [exact H|]. clear. lra.
  - destruct conv_CG_2020 as (a & b & E & E' & M). exists a, b. eexists. exists (0, 1, 0), (mapp M_CG_2020 (0, 1, 0)). split; [exact E|]. split; [exact E'|]. split; [exact M|].
    split; [unfold in_cube, v0, v1, v2; cbn [fst snd]; lra|]. split; [apply mat_mul_rgb_fin|].
    left. pose proof (zM_below (-85313377793464066077951343100946567398458154137027228631550) 50 3848918605638045633555715002897077765891400767487797650000000 eq_refl eq_refl eq_refl) as H.
    unfold M_CG_2020, zM, v0, v1, v2. cbn [mapp fst snd]. rewrite !Rmult_1_r, !Rmult_0_r, ?Rplus_0_r, ?Rplus_0_l.
    eapply Rlt_le_trans; [exact H|]. clear. lra.
Qed.
Print Assumptions C79_gamut_exclusions.

(* pure BT.709 green is (0.329, 0.920, 0.088) in BT.2020 *)
Example C79_example (K : XConst) (KO : XConstOk K) : exists a b m, ITUR_BT709 = Ret a /\ ITUR_BT2020 = Ret b
  /\ rgb_to_rgb_matrix a b = Ret m
  /\ mat_mul_rgb m (FinRgb (0, 1, 0)) = FinRgb (9255011753/28106554770, 6109575001/6644161620, 1772384008/20137682025).
Proof.
  destruct conv_709_2020 as (a & b & E & E' & M). exists a, b. eexists. repeat (split; [eassumption|]).
  rewrite mat_mul_rgb_fin. f_equal. unfold M_709_2020, zM. cbn [mapp]. apply f_equal2; [apply f_equal2|]; lra.
Qed.
