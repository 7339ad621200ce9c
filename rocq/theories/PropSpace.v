(* C23-C24: colour spaces *)
From Coq Require Import Reals ZArith QArith Qreals Lra Lia List Bool.
From Verif Require Import Outcome RealOps MathModel ColorModel AdaptModel SpaceModel TransformModel
  XReal SpecLin MatProofs AdaptProofs SpaceProofs.
Import ListNotations.
Open Scope R_scope.

(* ---- C23 ---- *)
(* The matrix built from primaries, for every choice of independent primaries and a white that is
   a mixture a*red + b*green + c*blue with nonzero coefficients. *)
Theorem C23_xyz_to_rgb_from_primaries : forall (K : XConst) (red green blue white : vec) (a b c : R),
  white_is_mix red green blue white a b c ->
  exists m, build_xyz_to_rgb_matrix (FinXyy red) (FinXyy green) (FinXyy blue) (FinXyy white) = FinM m
    /\ mapp m (white1 white) = (1, 1, 1)
    /\ mapp m (chroma red) = (/ a, 0, 0)
    /\ mapp m (chroma green) = (0, / b, 0)
    /\ mapp m (chroma blue) = (0, 0, / c)
    /\ mdet m <> 0.
Proof.
  intros K red green blue white a b c H. exists (space_fwd red green blue a b c).
  pose proof (space_inverse _ _ _ _ _ _ _ H) as I. destruct H as (Hw & Ha & Hb & Hc & HD & E).
  assert (H : white_is_mix red green blue white a b c) by (repeat split; assumption).
  repeat apply conj.
  - apply build_fin, H.
  - apply (inverse_app _ _ _ _ I), (space_bwd_white _ _ _ _ _ _ _ H).
  - apply (inverse_app _ _ _ _ I). unfold space_bwd, mcols.
    destruct (chroma red) as [[? ?] ?], (chroma green) as [[? ?] ?], (chroma blue) as [[? ?] ?].
    unfold v0, v1, v2. cbn. vec_ring; field; assumption.
  - apply (inverse_app _ _ _ _ I). unfold space_bwd, mcols.
    destruct (chroma red) as [[? ?] ?], (chroma green) as [[? ?] ?], (chroma blue) as [[? ?] ?].
    unfold v0, v1, v2. cbn. vec_ring; field; assumption.
  - apply (inverse_app _ _ _ _ I). unfold space_bwd, mcols.
    destruct (chroma red) as [[? ?] ?], (chroma green) as [[? ?] ?], (chroma blue) as [[? ?] ?].
    unfold v0, v1, v2. cbn. vec_ring; field; assumption.
  - apply (left_inverse_det _ _ (proj1 I)).
Qed.
Print Assumptions C23_xyz_to_rgb_from_primaries.

(* The whole constructor, when the matrix takes the general branch of Matrix33::inverse (the third
   column is not "nearly (<= eps, <= eps, 1)") and the inverse does not overflow. *)
Theorem C23_new_partial : forall (K : XConst) (KO : XConstOk K) (red green blue white : vec) (a b c : R) o e,
  white_is_mix red green blue white a b c ->
  forall m n,
  build_xyz_to_rgb_matrix (FinXyy red) (FinXyy green) (FinXyy blue) (FinXyy white) = FinM m ->
  is_inverse n m -> general_case m -> not_huge n ->
  exists s, cs_new (FinXyy red) (FinXyy green) (FinXyy blue) (FinXyy white) o e = Ret s
    /\ xf_xyz_to_rgb s = FinM m /\ xf_rgb_to_xyz s = FinM n
    /\ mapp m (white1 white) = (1, 1, 1) /\ mapp n (1, 1, 1) = white1 white
    /\ cs_red s = FinXyy red /\ cs_green s = FinXyy green /\ cs_blue s = FinXyy blue
    /\ cs_white s = FinXyy white /\ cs_oetf s = o /\ cs_eotf s = e.
Proof.
  intros K KO red green blue white a b c o e H m n B I G N.
  rewrite (build_fin _ _ _ _ _ _ _ H) in B.
  assert (Em : space_fwd red green blue a b c = m).
  { destruct (space_fwd red green blue a b c), m. cbn in B. congruence. }
  subst m. pose proof (space_inverse _ _ _ _ _ _ _ H) as I'.
  assert (En : n = space_bwd red green blue a b c) by exact (is_inverse_unique _ _ _ I I'). subst n.
  rewrite (cs_new_fin _ _ _ _ _ _ _ o e H G N). eexists. split; [reflexivity|].
  pose proof (space_bwd_white _ _ _ _ _ _ _ H) as W.
  repeat split; try assumption. exact (inverse_app _ _ _ _ I W).
Qed.
Print Assumptions C23_new_partial.

(* Realistic primaries (sRGB red and green, blue at (0.1, 0.06), white (0.3, 0.3264)) whose
   RGB-to-XYZ matrix is not the inverse: white (1,1,1) does not map back to the white point. *)
Theorem C23_new_refuted : forall (K : XConst) (KO : XConstOk K) o e,
  exists (red green blue white : vec) (a b c : R) m n,
  white_is_mix red green blue white a b c
  /\ cs_new (FinXyy red) (FinXyy green) (FinXyy blue) (FinXyy white) o e
     = Ret (ColorSpace (FinM m) (FinM n) (FinXyy red) (FinXyy green) (FinXyy blue) (FinXyy white) o e)
  /\ mapp m (white1 white) = (1, 1, 1)
  /\ ~ is_inverse n m
  /\ 0.1 < Rabs (v0 (mapp n (1, 1, 1)) - v0 (white1 white)).
Proof.
  intros K KO o e.
  exists (0.64, 0.33, 1), (0.3, 0.6, 1), (0.1, 0.06, 1), (0.3, 0.3264, 1).
  exists (2375 / 3366), (650 / 561), (475 / 396).
  assert (H : white_is_mix (0.64, 0.33, 1) (0.3, 0.6, 1) (0.1, 0.06, 1) (0.3, 0.3264, 1)
                (2375 / 3366) (650 / 561) (475 / 396)).
  { unfold white_is_mix, white1, mcols, chroma, v0, v1, v2, vadd, vscale, mdet. cbn [fst snd].
    repeat split; try lra. repeat (apply f_equal2; [|lra]). lra. }
  set (m := space_fwd (0.64, 0.33, 1) (0.3, 0.6, 1) (0.1, 0.06, 1) (2375 / 3366) (650 / 561) (475 / 396)).
  exists m, (affine_result m). split; [exact H|].
  assert (Em : m = M3 (1411 / 475) (-(2057 / 1425)) (-(119 / 475)) (-(2601 / 2600)) (5049 / 2600) (-(51 / 2600)) (1 / 19) (-(11 / 57)) 1).
  { pose proof (space_inverse _ _ _ _ _ _ _ H) as I. fold m in I.
    apply is_inverse_sym in I.
    apply (is_inverse_unique _ _ _ I). apply left_is_inverse.
    unfold space_bwd, mcols, chroma, vscale, v0, v1, v2. cbn [fst snd]. unfold mone. cbn [mmul].
    f_equal; lra. }
  assert (G : ~ general_case m).
  { rewrite Em. cbn [general_case]. pose proof (@xeps_pos K KO).
    replace (1 - 1) with 0 by ring. rewrite Rabs_R0. lra. }
  assert (R : 1 < affine_r m) by (rewrite Em; cbn [affine_r]; lra).
  repeat apply conj.
  - unfold cs_new. rewrite (build_fin _ _ _ _ _ _ _ H). fold m.
    destruct (inverse_affine m G) as [[_ E]|[N _]].
    + rewrite E. reflexivity.
    + elim N. left. rewrite Rabs_pos_eq; lra.
  - apply (inverse_app _ _ _ _ (space_inverse _ _ _ _ _ _ _ H)), (space_bwd_white _ _ _ _ _ _ _ H).
  - intro I. assert (NZ : affine_r m <> 0) by lra.
    apply (affine_result_right m NZ) in I. rewrite Em in I. destruct I as [I _]. lra.
  - rewrite Em. unfold white1, v0, v1. cbn [affine_result mapp fst snd].
    replace (1411 / 475 * (5049 / 2600) - - (2601 / 2600) * - (2057 / 1425)) with (133518/30875) by lra.
    rewrite Rabs_left1; lra.
Qed.
Print Assumptions C23_new_refuted.

(* ---- C24 ---- *)
(* exact: mutual inverses, white to (1,1,1) and back *)
Definition exact_space (s : color_space xr) (w : vec) : Prop :=
  exists m n, xf_xyz_to_rgb s = FinM m /\ xf_rgb_to_xyz s = FinM n /\ is_inverse n m
    /\ mapp m (white1 w) = (1, 1, 1) /\ mapp n (1, 1, 1) = white1 w /\ cs_white s = FinXyy w.

Definition mnear (eps : R) (p q : RM) : Prop :=
  match p, q with
  | Mat33 a b c d e f g h i, Mat33 a' b' c' d' e' f' g' h' i' =>
      Rabs (a - a') <= eps /\ Rabs (b - b') <= eps /\ Rabs (c - c') <= eps
      /\ Rabs (d - d') <= eps /\ Rabs (e - e') <= eps /\ Rabs (f - f') <= eps
      /\ Rabs (g - g') <= eps /\ Rabs (h - h') <= eps /\ Rabs (i - i') <= eps
  end.
Definition vnear (eps : R) (u v : vec) : Prop :=
  Rabs (v0 u - v0 v) <= eps /\ Rabs (v1 u - v1 v) <= eps /\ Rabs (v2 u - v2 v) <= eps.
Definition near_space (eps : R) (s : color_space xr) (w : vec) : Prop :=
  exists m n, xf_xyz_to_rgb s = FinM m /\ xf_rgb_to_xyz s = FinM n
    /\ mnear eps (mmul n m) mone /\ mnear eps (mmul m n) mone
    /\ vnear eps (mapp m (white1 w)) (1, 1, 1) /\ vnear eps (mapp n (1, 1, 1)) (white1 w)
    /\ cs_white s = FinXyy w.

Definition D65 : vec := (0.3127, 0.3290, 1).

Lemma lxy_fin (K : XConst) x y x' y' : Q2R x = x' -> Q2R y = y' -> lxy x y = FinXyy (x', y', 1).
Proof. intros <- <-. unfold lxy, FinXyy. xs. f_equal. apply (f_equal Fin). q2r; lra. Qed.

Lemma general_of (K : XConst) r g b a b' c : 0 < b' * mdet (mcols (chroma r) (chroma g) (chroma b)) -> b' <> 0 ->
  xeps * (b' * mdet (mcols (chroma r) (chroma g) (chroma b))) < v0 b * v1 r - v0 r * v1 b ->
  general_case (space_fwd r g b a b' c).
Proof.
  set (P := mcols _ _ _). intros H Hb H1.
  assert (D : mdet P <> 0). { intro E. rewrite E in H. lra. }
  unfold space_fwd. fold P. unfold minv.
  assert (E : exists p0 p1 p2 p3 p4 p6 p7 p8, madj P = M3 p0 p1 p2 p3 p4 (v0 b * v1 r - v0 r * v1 b) p6 p7 p8).
  { unfold P, mcols, chroma, v0, v1, v2. destruct r as [[? ?] ?], g as [[? ?] ?], b as [[? ?] ?]. cbn. do 8 eexists. reflexivity. }
  destruct E as (p0 & p1 & p2 & p3 & p4 & p6 & p7 & p8 & ->). cbn [mscale mdiag mmul general_case].
  right. left. apply (Rmult_lt_reg_r (b' * mdet P)); [exact H|].
  eapply Rlt_le_trans; [exact H1|]. right. field. tauto.
Qed.

Lemma exact_space_new (K : XConst) (KO : XConstOk K) red green blue white a b c o e :
  white_is_mix red green blue white a b c ->
  0 < b * mdet (mcols (chroma red) (chroma green) (chroma blue)) ->
  xeps * (b * mdet (mcols (chroma red) (chroma green) (chroma blue))) < v0 blue * v1 red - v0 red * v1 blue ->
  mall (fun x => Rabs x <= 1000) (space_bwd red green blue a b c) ->
  exists s, cs_new (FinXyy red) (FinXyy green) (FinXyy blue) (FinXyy white) o e = Ret s /\ exact_space s white.
Proof.
  intros H H1 H2 HB. eexists. split.
  - apply (cs_new_fin _ _ _ _ a b c); [exact H| |].
    + apply general_of; try assumption. apply H.
    + unfold not_huge. assert (L : 1000 < / xtiny).
      { rewrite <- (Rinv_inv 1000). apply Rinv_lt_contravar; [|apply xtiny_small].
        apply Rmult_lt_0_compat; [apply xtiny_pos | lra]. }
      destruct (space_bwd red green blue a b c); cbn [mall] in *.
      repeat match goal with X : _ /\ _ |- _ => destruct X end. repeat split; lra.
  - pose proof (space_inverse _ _ _ _ _ _ _ H) as I. pose proof (space_bwd_white _ _ _ _ _ _ _ H) as W.
    do 2 eexists. repeat (split; [reflexivity|]). split; [exact I|].
    split; [exact (inverse_app _ _ _ _ I W)|]. split; [exact W|reflexivity].
Qed.

Ltac builtin a b c :=
  rewrite ?(lxy_fin _ 0.64 0.33 0.64 0.33), ?(lxy_fin _ 0.30 0.60 0.3 0.6), ?(lxy_fin _ 0.15 0.06 0.15 0.06),
    ?(lxy_fin _ 0.3127 0.3290 0.3127 0.3290), ?(lxy_fin _ 0.708 0.292 0.708 0.292),
    ?(lxy_fin _ 0.17 0.797 0.17 0.797), ?(lxy_fin _ 0.131 0.046 0.131 0.046), ?(lxy_fin _ 0.680 0.320 0.68 0.32),
    ?(lxy_fin _ 0.265 0.690 0.265 0.69), ?(lxy_fin _ 0.150 0.060 0.15 0.06), ?(lxy_fin _ 0.314 0.351 0.314 0.351),
    ?(lxy_fin _ 0.713 0.293 0.713 0.293), ?(lxy_fin _ 0.165 0.830 0.165 0.83), ?(lxy_fin _ 0.128 0.044 0.128 0.044),
    ?(lxy_fin _ 0.32168 0.33767 0.32168 0.33767) by (q2r; lra);
  match goal with KO : XConstOk ?K |- _ => pose proof (@xeps_small K KO); pose proof (@xeps_pos K KO) end;
  apply (exact_space_new _ _ _ _ _ _ a b c);
  unfold white_is_mix, white1, space_bwd, mcols, chroma, vadd, vscale, v0, v1, v2, mdet; cbn [fst snd mall];
  [ repeat split; try lra; repeat (apply f_equal2; [|lra]); lra
  | lra
  | match goal with KO : XConstOk ?K |- ?e * ?k < _ =>
      apply Rle_lt_trans with (/ 1000 * k); [apply Rmult_le_compat_r; lra | lra] end
  | repeat split; apply Rabs_le; lra ].

Theorem C24_builtin_from_primaries : forall (K : XConst) (KO : XConstOk K),
  (exists s, SRGB_DRV = Ret s /\ exact_space s D65)
  /\ (exists s, ITUR_BT709 = Ret s /\ exact_space s D65)
  /\ (exists s, ITUR_BT2020 = Ret s /\ exact_space s D65)
  /\ (exists s, DCI_P3 = Ret s /\ exact_space s (0.314, 0.351, 1))
  /\ (exists s, DCI_P3_D65 = Ret s /\ exact_space s D65)
  /\ (exists s, ACES_CG = Ret s /\ exact_space s (0.32168, 0.33767, 1)).
Proof.
  intros K KO. unfold SRGB_DRV, ITUR_BT709, ITUR_BT2020, DCI_P3, DCI_P3_D65, ACES_CG, D65.
  repeat apply conj.
  - builtin (158360/245763) (878810/737289) (126730/105327).
  - builtin (158360/245763) (878810/737289) (126730/105327).
  - builtin (17917100/19915451) (118592800/139408157) (179720500/139408157).
  - builtin (23285/35568) (55795/53352) (122555/106704).
  - builtin (35783/50008) (3581/3572) (66083/50008).
  - builtin (4712223000/5071769633) (4119021000/5071769633) (6188656000/5071769633).
Qed.
Print Assumptions C24_builtin_from_primaries.

Ltac specified p q :=
  exists p, q; unfold SRGB, ACES, ADOBE_RGB_1998, ALEXA_WIDE_GAMUT, cs_new_with_specified_matrices; cbn [xf_xyz_to_rgb xf_rgb_to_xyz cs_white];
  split; [unfold FinM; xs; f_equal; apply (f_equal Fin); q2r; lra|];
  split; [unfold FinM; xs; f_equal; apply (f_equal Fin); q2r; lra|];
  unfold mnear, vnear, mone, white1, v0, v1, v2; cbn [mmul mapp fst snd];
  repeat apply conj; try (apply Rabs_le; lra); apply lxy_fin; q2r; lra.

Theorem C24_builtin_specified : forall (K : XConst),
  near_space 0.00016 SRGB D65
  /\ near_space 0.00000000007 ACES (0.32168, 0.33767, 1)
  /\ near_space 0.000012 ADOBE_RGB_1998 D65
  /\ near_space 0.0000014 ALEXA_WIDE_GAMUT D65.
Proof.
  intro K. unfold D65. repeat apply conj.
  - specified (M3 3.2406 (-1.5372) (-0.4986) (-0.9689) 1.8758 0.0415 0.0557 (-0.2040) 1.0570)
      (M3 0.4124 0.3576 0.1805 0.2126 0.7152 0.0722 0.0193 0.1192 0.9505).
  - specified (M3 1.0498110175 0 (-0.0000974845) (-0.4959030231) 1.3733130458 0.0982400361 0 0 0.9912520182)
      (M3 0.9525523959 0 0.0000936786 0.3439664498 0.7281660966 (-0.0721325464) 0 0 1.0088251844).
  - specified (M3 2.04159 (-0.56501) (-0.34473) (-0.96924) 1.87597 0.04156 0.01344 (-0.11836) 1.01517)
      (M3 0.57667 0.18556 0.18823 0.29734 0.62736 0.07529 0.02703 0.07069 0.99134).
  - specified (M3 1.789066 (-0.482534) (-0.200076) (-0.639849) 1.396400 0.194432 (-0.041532) 0.082335 0.878868)
      (M3 0.638008 0.214704 0.097744 0.291954 0.823841 (-0.115795) 0.002798 (-0.067034) 1.153294).
Qed.
Print Assumptions C24_builtin_specified.
