(* C37-C41: Lab conversions and colour differences, exact arithmetic *)
From Coq Require Import Reals ZArith QArith Qreals Lra Lia List Bool.
From Verif Require Import Outcome RealOps MathModel ColorModel LabModel XReal SpecLin TransferProofs LabProofs.
Open Scope R_scope.

(* Lab colours and whites as triples of reals; the conversions take model values *)
Ltac tri := repeat match goal with |- (_, _) = (_, _) => apply f_equal2 end.
Section P.
Context {K : XConst}.

(* ---- C37 ---- *)
Theorem C37_lab_roundtrip : forall w : vec, white_ok w ->
  (forall c : vec, xyz_to_lab (lab_to_xyz (FinLab c) (FinXyz w)) (FinXyz w) = FinLab c)
  /\ (forall v : vec, lab_to_xyz (xyz_to_lab (FinXyz v) (FinXyz w)) (FinXyz w) = FinXyz v).
Proof.
  intros [[wx wy] wz] W. pose proof W as (Hx & Hy & Hz). split.
  - intros [[L a] b]. rewrite lab_to_xyz_fin, xyz_to_lab_fin by exact W. f_equal. cbn [of_lab to_lab].
    assert (E : forall u w0, w0 <> 0 -> cie_g u * w0 / w0 = cie_g u) by (intros; field; assumption).
    rewrite !E by assumption. rewrite !cie_fg. tri; lra.
  - intros [[x y] z]. rewrite xyz_to_lab_fin, lab_to_xyz_fin by exact W. f_equal. cbn [of_lab to_lab].
    replace ((116 * cie_f (y / wy) - 16 + 16) / 116) with (cie_f (y / wy)) by field.
    replace (500 * (cie_f (x / wx) - cie_f (y / wy)) / 500 + cie_f (y / wy)) with (cie_f (x / wx)) by field.
    replace (cie_f (y / wy) - 200 * (cie_f (y / wy) - cie_f (z / wz)) / 200) with (cie_f (z / wz)) by field.
    rewrite !cie_gf. tri; field; assumption.
Qed.
(* a zero in the white is fatal, whatever the colour *)
Theorem C37_zero_white : forall v wx wz, lab_L (xyz_to_lab (FinXyz v) (FinXyz (wx, 0, wz))) = Bad.
Proof.
  intros [[x y] z] wx wz. unfold xyz_to_lab, xyz_div, FinXyz. cbn [xyz_x xyz_y xyz_z lab_L].
  rewrite x_div0. unfold lab_f. rewrite lab_epsilon_fin, lab_kappa_fin. reflexivity.
Qed.
Example C37_example : lab_to_xyz (FinLab (8, 0, 0)) (FinXyz (1, 1, 1)) = FinXyz (216 / 24389, 216 / 24389, 216 / 24389).
Proof.
  rewrite lab_to_xyz_fin. f_equal. cbn [of_lab]. unfold cie_g.
  replace ((8 + 16) / 116) with (6 / 29) by lra. replace (0 / 500 + 6 / 29) with (6 / 29) by lra.
  replace (6 / 29 - 0 / 200) with (6 / 29) by lra. destruct (Rlt_dec _ _); [lra|]. tri; lra.
Qed.

(* ---- C38 ---- *)
Lemma cie_f_1 : cie_f 1 = 1.
Proof. unfold cie_f. destruct (Rlt_dec _ _); [apply Rpower_one|lra]. Qed.
Lemma cie_f_0 : cie_f 0 = 4 / 29.
Proof. unfold cie_f. destruct (Rlt_dec _ _); lra. Qed.

Theorem C38_lab_anchors : forall w : vec, white_ok w ->
  xyz_to_lab (FinXyz w) (FinXyz w) = FinLab (100, 0, 0)
  /\ xyz_to_lab (FinXyz (0, 0, 0)) (FinXyz w) = FinLab (0, 0, 0)
  /\ (forall k x y z, xyz_to_lab (FinXyz (k * fst (fst w), k * snd (fst w), k * snd w)) (FinXyz w)
        = FinLab (x, y, z) -> y = 0 /\ z = 0)
  /\ (forall k v, k <> 0 ->
      xyz_to_lab (FinXyz (vscale k v)) (FinXyz (vscale k w)) = xyz_to_lab (FinXyz v) (FinXyz w))
  /\ (forall x y z x' y' z' : R, exists L L' : R,
      lab_L (xyz_to_lab (FinXyz (x, y, z)) (FinXyz w)) = Fin L
      /\ lab_L (xyz_to_lab (FinXyz (x', y', z')) (FinXyz w)) = Fin L'
      /\ (y / snd (fst w) < y' / snd (fst w) <-> L < L') /\ (y = y' <-> L = L')).
Proof.
  intros [[wx wy] wz] W. pose proof W as (Hx & Hy & Hz). cbn [fst snd]. repeat apply conj.
  - rewrite xyz_to_lab_fin by exact W. f_equal. cbn [to_lab]. unfold Rdiv. rewrite !Rinv_r by assumption.
    rewrite !cie_f_1. tri; lra.
  - rewrite xyz_to_lab_fin by exact W. f_equal. cbn [to_lab]. unfold Rdiv. rewrite !Rmult_0_l, cie_f_0.
    tri; lra.
  - intros k x y z. rewrite xyz_to_lab_fin by exact W. cbn [to_lab FinLab]. intro E. injection E as E1 E2 E3.
    replace (k * wx / wx) with k in * by (field; assumption). replace (k * wy / wy) with k in * by (field; assumption).
    replace (k * wz / wz) with k in * by (field; assumption). lra.
  - intros k [[x y] z] Hk. rewrite !xyz_to_lab_fin.
    2: exact W. 2: { cbn. repeat split; apply Rmult_integral_contrapositive; split; assumption. }
    f_equal. cbn [vscale to_lab].
    replace (k * x / (k * wx)) with (x / wx) by (field; split; assumption).
    replace (k * y / (k * wy)) with (y / wy) by (field; split; assumption).
    replace (k * z / (k * wz)) with (z / wz) by (field; split; assumption). reflexivity.
  - intros x y z x' y' z'. rewrite !xyz_to_lab_fin by exact W. cbn [to_lab FinLab lab_L].
    eexists; eexists. split; [reflexivity|]. split; [reflexivity|].
    assert (M : forall s t, cie_f s < cie_f t <-> s < t).
    { intros s t. split; [|apply cie_f_incr]. intro H. destruct (Rlt_dec s t) as [A|A]; [exact A|].
      apply Rnot_lt_le in A. destruct A as [A|A]; [apply cie_f_incr in A; lra|subst; lra]. }
    split.
    + rewrite <- M. split; lra.
    + split; [intros ->; reflexivity|]. intro E. assert (F : cie_f (y / wy) = cie_f (y' / wy)) by lra.
      apply (f_equal cie_g) in F. rewrite !cie_gf in F.
      apply (f_equal (fun u => u * wy)) in F. replace (y / wy * wy) with y in F by (field; exact Hy).
      replace (y' / wy * wy) with y' in F by (field; exact Hy). exact F.
Qed.
Example C38_example : xyz_to_lab (FinXyz (1, 0.125, 0.125)) (FinXyz (1, 1, 1)) = FinLab (42, 250, 0).
Proof.
  rewrite xyz_to_lab_fin by (cbn; lra). f_equal. cbn [to_lab].
  assert (E : cie_f (0.125 / 1) = 1 / 2).
  { rewrite <- (cie_fg (1 / 2)). f_equal. unfold cie_g. destruct (Rlt_dec _ _); lra. }
  rewrite E. replace (1 / 1) with 1 by lra. rewrite cie_f_1. tri; lra.
Qed.

(* ---- C39 ---- *)
Definition norm3 (x y z : R) : R := sqrt (x ^ 2 + y ^ 2 + z ^ 2).
Lemma norm3_arg x y z : 0 <= x ^ 2 + y ^ 2 + z ^ 2.
Proof. pose proof (pow2_ge_0 x). pose proof (pow2_ge_0 y). pose proof (pow2_ge_0 z). lra. Qed.
Lemma delta76_fin L a b L' a' b' :
  delta_E_1976 (FinLab (L, a, b)) (FinLab (L', a', b')) = Fin (norm3 (L - L') (a - a') (b - b')).
Proof.
  unfold delta_E_1976, FinLab. cbn [lab_L lab_a lab_b]. xs. rewrite x_sqrt by apply norm3_arg. reflexivity.
Qed.
Lemma norm3_triangle x y z x' y' z' : norm3 (x + x') (y + y') (z + z') <= norm3 x y z + norm3 x' y' z'.
Proof.
  unfold norm3. apply Rsqr_incr_0_var; [|apply Rplus_le_le_0_compat; apply sqrt_pos].
  rewrite Rsqr_sqrt by apply norm3_arg. rewrite Rsqr_plus, !Rsqr_sqrt by apply norm3_arg.
  assert (C : x * x' + y * y' + z * z' <= sqrt (x ^ 2 + y ^ 2 + z ^ 2) * sqrt (x' ^ 2 + y' ^ 2 + z' ^ 2)).
  { rewrite <- sqrt_mult by apply norm3_arg. destruct (Rle_dec (x * x' + y * y' + z * z') 0) as [N|N].
    - apply Rle_trans with 0; [exact N|apply sqrt_pos].
    - rewrite <- (sqrt_square (x * x' + y * y' + z * z')) by lra. apply sqrt_le_1_alt.
      pose proof (pow2_ge_0 (x * y' - y * x')). pose proof (pow2_ge_0 (x * z' - z * x')).
      pose proof (pow2_ge_0 (y * z' - z * y')). nra. }
  nra.
Qed.

Theorem C39_delta76_metric : forall c d e : vec, exists cd dc ce ed : R,
  delta_E_1976 (FinLab c) (FinLab d) = Fin cd /\ delta_E_1976 (FinLab d) (FinLab c) = Fin dc
  /\ delta_E_1976 (FinLab c) (FinLab e) = Fin ce /\ delta_E_1976 (FinLab e) (FinLab d) = Fin ed
  /\ 0 <= cd /\ cd = dc /\ (cd = 0 <-> c = d) /\ cd <= ce + ed.
Proof.
  intros [[L a] b] [[L' a'] b'] [[L'' a''] b'']. rewrite !delta76_fin. do 4 eexists.
  do 4 (split; [reflexivity|]). split; [apply sqrt_pos|]. split; [unfold norm3; f_equal; ring|]. split.
  - split.
    + intro E. unfold norm3 in E. apply sqrt_eq_0 in E; [|apply norm3_arg].
      pose proof (pow2_ge_0 (L - L')) as P1. pose proof (pow2_ge_0 (a - a')) as P2. pose proof (pow2_ge_0 (b - b')) as P3.
      assert (Z : forall u, u ^ 2 = 0 -> u = 0).
      { intros u Hu. replace (u ^ 2) with (u * u) in Hu by ring. apply Rmult_integral in Hu. tauto. }
      pose proof (Z (L - L') ltac:(lra)). pose proof (Z (a - a') ltac:(lra)). pose proof (Z (b - b') ltac:(lra)).
      tri; lra.
    + intro E. injection E as -> -> ->. unfold norm3. replace (_ + _) with 0 by ring. apply sqrt_0.
  - replace (L - L') with ((L - L'') + (L'' - L')) by ring. replace (a - a') with ((a - a'') + (a'' - a')) by ring.
    replace (b - b') with ((b - b'') + (b'' - b')) by ring. apply norm3_triangle.
Qed.
(* translation invariance and homogeneity pin the formula down *)
Theorem C39_delta76_norm : forall (c d t : vec) (k : R),
  delta_E_1976 (FinLab (vadd c t)) (FinLab (vadd d t)) = delta_E_1976 (FinLab c) (FinLab d)
  /\ delta_E_1976 (FinLab (vscale k c)) (FinLab (vscale k d)) = rmul (Fin (Rabs k)) (delta_E_1976 (FinLab c) (FinLab d))
  /\ (forall L a b, delta_E_1976 (FinLab (L, 0, 0)) (FinLab (0, 0, 0)) = Fin (Rabs L)
      /\ delta_E_1976 (FinLab (0, a, 0)) (FinLab (0, 0, 0)) = Fin (Rabs a)
      /\ delta_E_1976 (FinLab (0, 0, b)) (FinLab (0, 0, 0)) = Fin (Rabs b)).
Proof.
  intros [[L a] b] [[L' a'] b'] [[tL ta] tb] k. cbn [vadd vscale]. rewrite !delta76_fin. xs. repeat apply conj.
  - apply (f_equal Fin). f_equal; ring.
  - apply (f_equal Fin). unfold norm3. rewrite <- sqrt_Rsqr_abs, <- sqrt_mult; [f_equal; unfold Rsqr; ring| |apply norm3_arg].
    apply Rle_0_sqr.
  - intros x y z. rewrite !delta76_fin. unfold norm3. rewrite <- !sqrt_Rsqr_abs. unfold Rsqr.
    repeat split; apply (f_equal Fin); f_equal; ring.
Qed.
Example C39_example : delta_E_1976 (FinLab (50, 3, 0)) (FinLab (50, 0, 4)) = Fin 5.
Proof.
  rewrite delta76_fin. apply (f_equal Fin). unfold norm3.
  replace ((50 - 50) ^ 2 + (3 - 0) ^ 2 + (0 - 4) ^ 2) with (5 * 5) by ring. apply sqrt_square. lra.
Qed.

(* ---- C40 ---- *)
Lemma hue_diff_swap CC h1 h2 : hue_diff CC h2 h1 = - hue_diff CC h1 h2.
Proof.
  unfold hue_diff. destruct (Req_EM_T CC 0); [lra|]. rewrite (Rabs_minus_sym h1 h2).
  destruct (Rle_dec (Rabs (h2 - h1)) 180) as [H|H]; [lra|]. apply Rnot_le_lt in H.
  unfold Rabs in H. destruct (Rcase_abs (h2 - h1)); destruct (Rlt_dec 180 (h1 - h2)); destruct (Rlt_dec 180 (h2 - h1)); lra.
Qed.
Lemma hue_mean_swap CC h1 h2 : hue_mean CC h2 h1 = hue_mean CC h1 h2.
Proof. unfold hue_mean. rewrite (Rplus_comm h2 h1), (Rabs_minus_sym h2 h1). reflexivity. Qed.

Theorem C40_delta2000_symmetric : forall c d : vec,
  delta_E_2000 (FinLab c) (FinLab d) = delta_E_2000 (FinLab d) (FinLab c).
Proof.
  intros [[L1 a1] b1] [[L2 a2] b2]. rewrite !delta_E_2000_fin. apply (f_equal Fin). unfold de2000.
  assert (G : gfac a2 b2 a1 b1 = gfac a1 b1 a2 b2) by (unfold gfac; rewrite (Rplus_comm (hyp a2 b2)); reflexivity).
  rewrite G. set (k := 1 + gfac a1 b1 a2 b2). set (C1 := hyp (k * a1) b1). set (C2 := hyp (k * a2) b2).
  rewrite (Rmult_comm C2 C1), (Rplus_comm C2 C1), (Rplus_comm L2 L1).
  rewrite (hue_diff_swap _ (hue b1 (k * a1)) (hue b2 (k * a2))).
  rewrite (hue_mean_swap _ (hue b1 (k * a1)) (hue b2 (k * a2))).
  set (hd := hue_diff _ _ _). set (hm := hue_mean _ _ _).
  replace (- hd / 2 * PI / 180) with (- (hd / 2 * PI / 180)) by field. rewrite sin_neg.
  f_equal. unfold Rdiv. ring.
Qed.
(* the literal values of the symmetric inputs matter: a grey and a colour *)
Example C40_example : delta_E_2000 (FinLab (50, 0, 0)) (FinLab (50, 3, 4)) = delta_E_2000 (FinLab (50, 3, 4)) (FinLab (50, 0, 0)).
Proof. apply C40_delta2000_symmetric. Qed.

(* ---- C41 ---- *)
Lemma hue_range b a : 0 <= hue b a < 360.
Proof.
  pose proof PI_RGT_0 as P. pose proof (Ratan2_bounds b a) as [H1 H2]. unfold hue.
  set (t := Ratan2 b a) in *.
  assert (B1 : -180 < t * 180 / PI).
  { apply (Rmult_lt_reg_r PI); [exact P|]. unfold Rdiv. rewrite Rmult_assoc, Rinv_l by lra. lra. }
  assert (B2 : t * 180 / PI <= 180).
  { apply (Rmult_le_reg_r PI); [exact P|]. unfold Rdiv. rewrite Rmult_assoc, Rinv_l by lra. lra. }
  destruct (Rlt_dec _ _); lra.
Qed.
Lemma hue_polar a b : a = hyp a b * cos (hue b a * PI / 180) /\ b = hyp a b * sin (hue b a * PI / 180).
Proof.
  pose proof PI_RGT_0 as P. destruct (polar a b) as [E1 E2]. unfold hue, hyp. 
  assert (C : cos ((Ratan2 b a * 180 / PI + 360) * PI / 180) = cos (Ratan2 b a)).
  { replace ((Ratan2 b a * 180 / PI + 360) * PI / 180) with (Ratan2 b a + 2 * INR 1 * PI) by (cbn; field; lra). apply cos_period. }
  assert (S : sin ((Ratan2 b a * 180 / PI + 360) * PI / 180) = sin (Ratan2 b a)).
  { replace ((Ratan2 b a * 180 / PI + 360) * PI / 180) with (Ratan2 b a + 2 * INR 1 * PI) by (cbn; field; lra). apply sin_period. }
  assert (I : Ratan2 b a * 180 / PI * PI / 180 = Ratan2 b a) by (field; lra).
  destruct (Rlt_dec _ _); rewrite ?C, ?S, ?I; split; symmetry; assumption.
Qed.
Lemma hyp_zero x y : hyp x y = 0 -> x = 0 /\ y = 0.
Proof.
  intro E. unfold hyp in E. apply sqrt_eq_0 in E; [|nra].
  assert (0 <= x * x) by nra. assert (0 <= y * y) by nra. split.
  - assert (x * x = 0) by lra. apply Rmult_integral in H1. tauto.
  - assert (y * y = 0) by lra. apply Rmult_integral in H1. tauto.
Qed.
Lemma half_sin d : -180 <= d <= 180 -> sin (d / 2 * PI / 180) = 0 -> d = 0.
Proof.
  intros H E. pose proof PI_RGT_0 as P. destruct (Rtotal_order d 0) as [N|[Z|N]]; [|exact Z|].
  - assert (0 < sin (- (d / 2 * PI / 180))); [|rewrite sin_neg in *; lra].
    apply sin_gt_0; [nra|]. nra.
  - assert (0 < sin (d / 2 * PI / 180)); [|lra]. apply sin_gt_0; nra.
Qed.
Lemma hue_diff_range CC h1 h2 : 0 <= h1 < 360 -> 0 <= h2 < 360 -> -180 <= hue_diff CC h1 h2 <= 180.
Proof.
  intros H1 H2. unfold hue_diff. destruct (Req_EM_T CC 0); [lra|].
  destruct (Rle_dec _ _) as [H|H].
  - unfold Rabs in H. destruct (Rcase_abs _); lra.
  - apply Rnot_le_lt in H. destruct (Rlt_dec 180 (h2 - h1)); [lra|]. unfold Rabs in H. destruct (Rcase_abs _); lra.
Qed.
Lemma hue_diff_zero CC h1 h2 : CC <> 0 -> 0 <= h1 < 360 -> 0 <= h2 < 360 -> hue_diff CC h1 h2 = 0 -> h1 = h2.
Proof.
  intros N H1 H2. unfold hue_diff. destruct (Req_EM_T CC 0); [contradiction|].
  destruct (Rle_dec _ _) as [H|H]; [lra|]. destruct (Rlt_dec 180 (h2 - h1)); lra.
Qed.
Lemma hue_diff_same CC h : hue_diff CC h h = 0.
Proof.
  unfold hue_diff. replace (h - h) with 0 by ring. rewrite Rabs_R0.
  destruct (Req_EM_T _ _); [reflexivity|]. destruct (Rle_dec 0 180); [reflexivity|lra].
Qed.
Lemma div_zero x y : 0 < y -> x / y = 0 -> x = 0.
Proof. intros H E. apply (f_equal (fun u => u * y)) in E. replace (x / y * y) with x in E by (field; lra). lra. Qed.

Theorem C41_delta2000_defined : forall c d : vec, exists r : R,
  delta_E_2000 (FinLab c) (FinLab d) = Fin r /\ 0 <= r /\ (r = 0 <-> c = d).
Proof.
  intros [[L1 a1] b1] [[L2 a2] b2]. rewrite delta_E_2000_fin. eexists. split; [reflexivity|].
  unfold de2000. set (k := 1 + gfac a1 b1 a2 b2). assert (Kp : 0 < k) by apply gfac_pos.
  set (C1 := hyp (k * a1) b1). set (C2 := hyp (k * a2) b2).
  assert (P1 : 0 <= C1) by apply hyp_nonneg. assert (P2 : 0 <= C2) by apply hyp_nonneg.
  set (h1 := hue b1 (k * a1)). set (h2 := hue b2 (k * a2)).
  assert (R1 : 0 <= h1 < 360) by apply hue_range. assert (R2 : 0 <= h2 < 360) by apply hue_range.
  set (hm := hue_mean _ _ _). set (C := (C1 + C2) / 2). assert (HC : 0 <= C) by (unfold C; lra).
  pose proof (de_RT_bound hm C HC) as RT. pose proof (de_SL_ge ((L1 + L2) / 2)) as SL. pose proof (SH_ge C hm HC) as SH.
  split; [apply sqrt_pos|]. split.
  - intro E. apply sqrt_eq_0 in E; [|apply form_pos, RT]. apply form_zero in E; [|exact RT].
    destruct E as (EL & EC & EH). apply div_zero in EL; [|lra]. apply div_zero in EC; [|lra]. apply div_zero in EH; [|lra].
    assert (C2 = C1) by lra. assert (L2 = L1) by lra.
    destruct (hue_polar (k * a1) b1) as [A1 B1]. destruct (hue_polar (k * a2) b2) as [A2 B2].
    fold C1 h1 in A1, B1. fold C2 h2 in A2, B2.
    assert (S : k * a1 = k * a2 /\ b1 = b2).
    { destruct (Req_dec C1 0) as [Z|Z].
      - rewrite A1, A2, B1, B2. replace C2 with C1 by lra. rewrite Z. split; ring.
      - assert (CC : C1 * C2 <> 0) by (rewrite H; apply Rmult_integral_contrapositive; split; assumption).
        assert (SQ : sqrt (C1 * C2) <> 0). { apply Rgt_not_eq, sqrt_lt_R0. nra. }
        apply Rmult_integral in EH as [EH|EH]; [lra|].
        apply half_sin in EH; [|apply hue_diff_range; assumption].
        apply hue_diff_zero in EH; [|assumption..].
        rewrite A1, A2, B1, B2. rewrite EH, H. split; reflexivity. }
    destruct S as [S1 S2]. apply Rmult_eq_reg_l in S1; [|lra]. tri; [lra|exact S1|exact S2].
  - intro E. injection E as E1 E2 E3.
    assert (Eh : h2 = h1) by (unfold h1, h2; rewrite E2, E3; reflexivity).
    assert (EC : C2 = C1) by (unfold C1, C2; rewrite E2, E3; reflexivity).
    rewrite Eh, EC, hue_diff_same, E1. replace (0 / 2 * PI / 180) with 0 by field. rewrite sin_0.
    match goal with |- sqrt ?e = 0 => replace e with 0; [apply sqrt_0|unfold Rdiv; ring] end.
Qed.

(* two greys: the difference is the lightness step over the lightness weight *)
Theorem C41_delta2000_greys : forall L L' : R,
  delta_E_2000 (FinLab (L, 0, 0)) (FinLab (L', 0, 0))
  = Fin (Rabs (L' - L) / (1 + 0.015 * ((L + L') / 2 - 50) ^ 2 / sqrt (20 + ((L + L') / 2 - 50) ^ 2))).
Proof.
  intros L L'. rewrite delta_E_2000_fin. apply (f_equal Fin). unfold de2000.
  rewrite Rmult_0_r. assert (Z : hyp 0 0 = 0) by (unfold hyp; replace (0 * 0 + 0 * 0) with 0 by ring; apply sqrt_0).
  rewrite Z, Rmult_0_r, sqrt_0. fold (de_SL ((L + L') / 2)). pose proof (de_SL_ge ((L + L') / 2)) as G.
  set (s := de_SL ((L + L') / 2)) in *.
  rewrite <- (Rabs_right s) at 3 by lra.
  assert (A : Rabs (L' - L) / Rabs s = Rabs ((L' - L) / s)).
  { unfold Rdiv. rewrite Rabs_mult, Rabs_inv by lra. reflexivity. }
  rewrite A, <- sqrt_Rsqr_abs. f_equal. unfold Rsqr, Rdiv. ring.
Qed.
Example C41_example : delta_E_2000 (FinLab (50, 2, 3)) (FinLab (50, 2, 4)) <> Fin 0.
Proof.
  destruct (C41_delta2000_defined (50, 2, 3) (50, 2, 4)) as (r & E & _ & Z). rewrite E. intro H. injection H as ->.
  destruct Z as [Z _]. specialize (Z eq_refl). injection Z as Z. lra.
Qed.
End P.

Print Assumptions C37_lab_roundtrip.
Print Assumptions C41_delta2000_defined.
