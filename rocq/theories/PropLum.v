(* C88-C89: luminance weights of the built-in spaces, physical XYZ for in-gamut colours, and the box Lab stays in *)
From Coq Require Import Reals ZArith QArith Qreals Lra Lia List Bool.
From Verif Require Import Outcome RealOps MathModel ColorModel AdaptModel SpaceModel TransformModel LabModel
  XReal SpecLin MatProofs AdaptProofs SpaceProofs PropSpace PropTransform PropGamut LabProofs PropLab TransferProofs.
Import ListNotations.
Open Scope R_scope.

(* ---- C88 ---- *)
(* Y is 100 (a R + b G + c B) for every colour, where a, b, c are the published weights p up to eps and sum to 1 up to dev *)
Definition luminance {K : XConst} (eps dev : R) (s : color_space xr) (p : vec) : Prop :=
  exists a b c : R, Rabs (a - v0 p) <= eps /\ Rabs (b - v1 p) <= eps /\ Rabs (c - v2 p) <= eps /\ Rabs (a + b + c - 1) <= dev
    /\ forall r g b', exists x z, rgb_to_xyz (xf_rgb_to_xyz s) (FinRgb (r, g, b')) = FinXyz (x, 100 * (a * r + b * g + c * b'), z).
(* every colour of the unit cube has X, Y, Z between 0 and those of white, and only black has Y = 0 *)
Definition physical {K : XConst} (s : color_space xr) : Prop :=
  exists w, rgb_to_xyz (xf_rgb_to_xyz s) (FinRgb (1, 1, 1)) = FinXyz w /\ 0 < v0 w /\ 0 < v1 w /\ 0 < v2 w /\
  forall v, in_cube v -> exists u, rgb_to_xyz (xf_rgb_to_xyz s) (FinRgb v) = FinXyz u
    /\ 0 <= v0 u <= v0 w /\ 0 <= v1 u <= v1 w /\ 0 <= v2 u <= v2 w /\ (v1 u = 0 -> v = (0, 0, 0)).

Lemma lum_of {K : XConst} eps dev s n p : xf_rgb_to_xyz s = FinM n ->
  match n with Mat33 _ _ _ a b c _ _ _ => Rabs (a - v0 p) <= eps /\ Rabs (b - v1 p) <= eps /\ Rabs (c - v2 p) <= eps /\ Rabs (a + b + c - 1) <= dev end -> luminance eps dev s p.
Proof.
  intros E. destruct n as [m0 m1 m2 a b c m6 m7 m8]. intros (A & B & C & D). exists a, b, c. repeat (split; [assumption|]).
  intros r g b'. do 2 eexists. rewrite E, rgb_to_xyz_fin. cbn [mapp vscale]. reflexivity.
Qed.
Lemma phys_of {K : XConst} s n : xf_rgb_to_xyz s = FinM n ->
  match n with Mat33 a b c d e f g h i => 0 < a /\ 0 <= b /\ 0 <= c /\ 0 < d /\ 0 < e /\ 0 < f /\ 0 <= g /\ 0 <= h /\ 0 < i end -> physical s.
Proof.
  intros E. destruct n as [a b c d e f g h i]. intros (A & B & C & D & E' & F & G & H & I). eexists. rewrite E, rgb_to_xyz_fin. split; [reflexivity|].
  unfold vscale, v0, v1, v2. cbn [mapp fst snd]. split; [lra|]. split; [lra|]. split; [lra|].
  intros [[x y] z]. unfold in_cube, v0, v1, v2. cbn [fst snd]. intros (X & Y & Z). eexists. rewrite rgb_to_xyz_fin. split; [reflexivity|].
  unfold vscale. cbn [mapp fst snd].
  assert (T : forall p q, 0 <= p -> 0 <= q <= 1 -> 0 <= p * q <= p) by (intros p q P Q; split; [apply Rmult_le_pos; lra|rewrite <- (Rmult_1_r p) at 2; apply Rmult_le_compat_l; lra]).
  pose proof (T a x ltac:(lra) X). pose proof (T b y B Y). pose proof (T c z C Z). pose proof (T d x ltac:(lra) X). pose proof (T e y ltac:(lra) Y). pose proof (T f z ltac:(lra) Z).
  pose proof (T g x G X). pose proof (T h y H Y). pose proof (T i z ltac:(lra) Z).
  split; [lra|]. split; [lra|]. split; [lra|]. intro Q.
  assert (ZZ : forall p q, 0 < p -> 0 <= q -> p * q <= 0 -> q = 0) by (intros p q P Q0 Q1; destruct (Req_dec q 0); [assumption|]; assert (0 < p * q) by (apply Rmult_lt_0_compat; lra); lra).
  rewrite (ZZ d x), (ZZ e y), (ZZ f z) by lra. reflexivity.
Qed.
Lemma not_phys {K : XConst} s n v : xf_rgb_to_xyz s = FinM n -> in_cube v -> v1 (mapp n v) < 0 \/ v2 (mapp n v) < 0 -> ~ physical s.
Proof.
  intros E V N (w & _ & _ & _ & _ & H). destruct (H v V) as (u & U & _ & U1 & U2 & _). rewrite E, rgb_to_xyz_fin in U.
  destruct (mapp n v) as [[x y] z], u as [[x' y'] z']. unfold v1, v2 in *. cbn [fst snd vscale] in *. injection U as _ <- <-. lra.
Qed.
Ltac by_matrix B := destruct B as (_ & _ & N & _); first [eapply lum_of | eapply phys_of]; [exact N|];
  unfold space_bwd, mcols, chroma, vscale, v0, v1, v2; cbn [fst snd]; repeat match goal with |- _ /\ _ => split end; try (apply Rabs_le); lra.

(* ACEScg's red primary has x + y = 1.006, so its Z is negative *)
Theorem C88_luminance_exact : forall (K : XConst) (KO : XConstOk K),
  (exists s, SRGB_DRV = Ret s /\ luminance 0.00005 0 s (0.2126, 0.7152, 0.0722) /\ physical s)
  /\ (exists s, ITUR_BT709 = Ret s /\ luminance 0.00005 0 s (0.2126, 0.7152, 0.0722) /\ physical s)
  /\ (exists s, ITUR_BT2020 = Ret s /\ luminance 0.00005 0 s (0.2627, 0.6780, 0.0593) /\ physical s)
  /\ (exists s, DCI_P3 = Ret s /\ luminance 0.00005 0 s (0.2095, 0.7216, 0.0689) /\ physical s)
  /\ (exists s, DCI_P3_D65 = Ret s /\ luminance 0.00005 0 s (0.2290, 0.6917, 0.0793) /\ physical s)
  /\ (exists s, ACES_CG = Ret s /\ luminance 0.00005 0 s (0.2722, 0.6741, 0.0537) /\ ~ physical s).
Proof.
  intros K KO. repeat match goal with |- _ /\ _ => split end.
  - destruct srgb_built as (s & E & B). exists s. split; [exact E|]. split; by_matrix B.
  - destruct bt709_built as (s & E & B). exists s. split; [exact E|]. split; by_matrix B.
  - destruct bt2020_built as (s & E & B). exists s. split; [exact E|]. split; by_matrix B.
  - destruct p3_built as (s & E & B). exists s. split; [exact E|]. split; by_matrix B.
  - destruct p3d65_built as (s & E & B). exists s. split; [exact E|]. split; by_matrix B.
  - destruct acescg_built as (s & E & B). exists s. split; [exact E|]. split; [by_matrix B|]. destruct B as (_ & _ & N & _).
    apply (not_phys _ _ (1, 0, 0) N); [unfold in_cube, v0, v1, v2; cbn [fst snd]; lra|]. right.
    unfold space_bwd, mcols, chroma, vscale, v0, v1, v2. cbn [mapp fst snd]. lra.
Qed.

Lemma SRGB_bwd (K : XConst) : xf_rgb_to_xyz SRGB = FinM (M3 0.4124 0.3576 0.1805 0.2126 0.7152 0.0722 0.0193 0.1192 0.9505).
Proof. unfold SRGB, cs_new_with_specified_matrices. cbn [xf_rgb_to_xyz]. unfold FinM; xs; f_equal; apply (f_equal Fin); q2r; lra. Qed.
Lemma ACES_bwd (K : XConst) : xf_rgb_to_xyz ACES = FinM (M3 0.9525523959 0 0.0000936786 0.3439664498 0.7281660966 (-0.0721325464) 0 0 1.0088251844).
Proof. unfold ACES, cs_new_with_specified_matrices. cbn [xf_rgb_to_xyz]. unfold FinM; xs; f_equal; apply (f_equal Fin); q2r; lra. Qed.
Lemma ADOBE_bwd (K : XConst) : xf_rgb_to_xyz ADOBE_RGB_1998 = FinM (M3 0.57667 0.18556 0.18823 0.29734 0.62736 0.07529 0.02703 0.07069 0.99134).
Proof. unfold ADOBE_RGB_1998, cs_new_with_specified_matrices. cbn [xf_rgb_to_xyz]. unfold FinM; xs; f_equal; apply (f_equal Fin); q2r; lra. Qed.
Lemma ALEXA_bwd (K : XConst) : xf_rgb_to_xyz ALEXA_WIDE_GAMUT = FinM (M3 0.638008 0.214704 0.097744 0.291954 0.823841 (-0.115795) 0.002798 (-0.067034) 1.153294).
Proof. unfold ALEXA_WIDE_GAMUT, cs_new_with_specified_matrices. cbn [xf_rgb_to_xyz]. unfold FinM; xs; f_equal; apply (f_equal Fin); q2r; lra. Qed.

(* Adobe's printed weights sum to 0.99999; the blue of the two wide camera spaces is imaginary and has negative luminance *)
Theorem C88_luminance_specified : forall (K : XConst),
  luminance 0 0 SRGB (0.2126, 0.7152, 0.0722) /\ physical SRGB
  /\ luminance 0 0.00001 ADOBE_RGB_1998 (0.29734, 0.62736, 0.07529) /\ physical ADOBE_RGB_1998
  /\ luminance 0 0 ACES (0.3439664498, 0.7281660966, -0.0721325464) /\ ~ physical ACES
  /\ luminance 0 0 ALEXA_WIDE_GAMUT (0.291954, 0.823841, -0.115795) /\ ~ physical ALEXA_WIDE_GAMUT.
Proof.
  intro K.
  repeat match goal with |- _ /\ _ => split end.
  1: eapply lum_of; [apply SRGB_bwd|]. 2: eapply phys_of; [apply SRGB_bwd|]. 3: eapply lum_of; [apply ADOBE_bwd|]. 4: eapply phys_of; [apply ADOBE_bwd|].
  5: eapply lum_of; [apply ACES_bwd|]. 6: apply (not_phys _ _ (0, 0, 1) (ACES_bwd K)); [unfold in_cube, v0, v1, v2; cbn [fst snd]; lra|left]. 7: eapply lum_of; [apply ALEXA_bwd|]. 8: apply (not_phys _ _ (0, 0, 1) (ALEXA_bwd K)); [unfold in_cube, v0, v1, v2; cbn [fst snd]; lra|left].
  all: unfold v0, v1, v2; cbn [mapp fst snd]; repeat match goal with |- _ /\ _ => split end; try (apply Rabs_le); lra.
Qed.
(* sRGB yellow carries 92.78% of the luminance of white *)
Example C88_example (K : XConst) : rgb_to_xyz (xf_rgb_to_xyz SRGB) (FinRgb (1, 1, 0)) = FinXyz (77, 92.78, 13.85).
Proof. rewrite SRGB_bwd, rgb_to_xyz_fin. f_equal. cbn [mapp vscale]. repeat (apply f_equal2; [|lra]). lra. Qed.

(* ---- C89 ---- *)
Lemma cie_f_unit t : 0 <= t <= 1 -> 4 / 29 <= cie_f t <= 1.
Proof.
  intros [A B]. split.
  - rewrite <- cie_f_0. destruct A as [A| <-]; [apply Rlt_le, cie_f_incr, A|lra].
  - rewrite <- cie_f_1. destruct B as [B| ->]; [apply Rlt_le, cie_f_incr, B|lra].
Qed.
(* any colour between black and the white stays in a box ... *)
Theorem C89_lab_box : forall (K : XConst) (u w : vec), 0 < v0 w -> 0 < v1 w -> 0 < v2 w -> 0 <= v0 u <= v0 w -> 0 <= v1 u <= v1 w -> 0 <= v2 u <= v2 w ->
  exists L a b, xyz_to_lab (FinXyz u) (FinXyz w) = FinLab (L, a, b) /\ 0 <= L <= 100 /\ Rabs a <= 12500 / 29 /\ Rabs b <= 5000 / 29.
Proof.
  intros K [[x y] z] [[wx wy] wz]. unfold v0, v1, v2. cbn [fst snd]. intros X Y Z HX HY HZ. do 3 eexists. rewrite xyz_to_lab_fin by (cbn; lra). split; [reflexivity|].
  assert (D : forall p q, 0 < q -> 0 <= p <= q -> 0 <= p / q <= 1).
  { intros p q Q P. split; [apply Rmult_le_pos; [lra|apply Rlt_le, Rinv_0_lt_compat, Q]|]. apply (Rmult_le_reg_r q); [exact Q|]. unfold Rdiv. rewrite Rmult_assoc, Rinv_l by lra. lra. }
  pose proof (cie_f_unit _ (D x wx X HX)). pose proof (cie_f_unit _ (D y wy Y HY)). pose proof (cie_f_unit _ (D z wz Z HZ)).
  split; [lra|]. split; apply Rabs_le; lra.
Qed.
(* ... whose faces are all touched *)
Theorem C89_lab_box_tight : forall (K : XConst) (w : vec), 0 < v0 w -> 0 < v1 w -> 0 < v2 w ->
  xyz_to_lab (FinXyz (v0 w, 0, 0)) (FinXyz w) = FinLab (0, 12500 / 29, 0)
  /\ xyz_to_lab (FinXyz (0, v1 w, v2 w)) (FinXyz w) = FinLab (100, - (12500 / 29), 0)
  /\ xyz_to_lab (FinXyz (v0 w, v1 w, 0)) (FinXyz w) = FinLab (100, 0, 5000 / 29)
  /\ xyz_to_lab (FinXyz (0, 0, v2 w)) (FinXyz w) = FinLab (0, 0, - (5000 / 29)).
Proof.
  intros K [[wx wy] wz]. unfold v0, v1, v2. cbn [fst snd]. intros X Y Z.
  assert (D : forall q, 0 < q -> q / q = 1) by (intros; field; lra). assert (D0 : forall q, 0 / q = 0) by (intro; unfold Rdiv; ring).
  repeat match goal with |- _ /\ _ => split end; rewrite xyz_to_lab_fin by (cbn; lra); f_equal; cbn [to_lab]; rewrite ?D, ?D0, ?cie_f_1, ?cie_f_0 by assumption; repeat (apply f_equal2; [|lra]); lra.
Qed.
(* hence every colour of the unit cube of a physical space, measured against the space's own white *)
Theorem C89_in_gamut_lab : forall (K : XConst) (s : color_space xr), physical s -> forall v, in_cube v ->
  exists L a b, xyz_to_lab (rgb_to_xyz (xf_rgb_to_xyz s) (FinRgb v)) (rgb_to_xyz (xf_rgb_to_xyz s) (FinRgb (1, 1, 1))) = FinLab (L, a, b)
    /\ 0 <= L <= 100 /\ Rabs a <= 12500 / 29 /\ Rabs b <= 5000 / 29 /\ (L = 0 -> v = (0, 0, 0)).
Proof.
  intros K s (w & W & W0 & W1 & W2 & H) v V. destruct (H v V) as (u & U & U0 & U1 & U2 & B). rewrite U, W.
  destruct (C89_lab_box K u w W0 W1 W2 U0 U1 U2) as (L & a & b & E & LL & A & BB). exists L, a, b. repeat (split; [assumption|]). intros ->. apply B.
  destruct u as [[x y] z], w as [[wx wy] wz]. unfold v0, v1, v2 in *. cbn [fst snd] in *. rewrite xyz_to_lab_fin in E by (cbn; lra). injection E as E _ _.
  assert (F : cie_f (y / wy) = cie_f 0) by (rewrite cie_f_0; lra).
  assert (Y : y / wy = 0) by (destruct (Rtotal_order (y / wy) 0) as [T|[T|T]]; [apply cie_f_incr in T; lra|exact T|apply cie_f_incr in T; lra]).
  apply (Rmult_eq_reg_r (/ wy)); [|apply Rinv_neq_0_compat; lra]. unfold Rdiv in Y. rewrite Y. ring.
Qed.
Example C89_example (K : XConst) : exists L a b, xyz_to_lab (rgb_to_xyz (xf_rgb_to_xyz SRGB) (FinRgb (0, 0, 1))) (rgb_to_xyz (xf_rgb_to_xyz SRGB) (FinRgb (1, 1, 1))) = FinLab (L, a, b) /\ 32 < L < 33.
Proof.
  rewrite SRGB_bwd, !rgb_to_xyz_fin. cbn [mapp vscale]. do 3 eexists. rewrite xyz_to_lab_fin by (cbn; lra). split; [reflexivity|].
  match goal with |- context [cie_f ?q] => replace q with 0.0722 by lra end. unfold cie_f. destruct (Rlt_dec _ _) as [T|T]; [|lra].
  assert (48 / 116 < Rpower 0.0722 (/ 3)) by (apply (TransferProofs.lt_frac_power _ _ 1 3); [lra|lra|cbn; lra|lia|]; lra).
  assert (Rpower 0.0722 (/ 3) < 49 / 116) by (apply (TransferProofs.gt_frac_power _ _ 1 3); [lra|lra|cbn; lra|lia|]; lra). lra.
Qed.
