(* lab.rs on exact reals *)
From Coq Require Import Reals ZArith QArith Qreals Lra Lia List Bool.
From Verif Require Import Outcome RealOps MathModel ColorModel LabModel XReal SpecLin TransferProofs.
Open Scope R_scope.

Definition FinLab (v : vec) : lab xr := match v with (L, a, b) => Lab (Fin L) (Fin a) (Fin b) end.

(* CIE 1976 curve: cube root above (6/29)^3, straight line below *)
Definition cie_f (t : R) : R :=
  if Rlt_dec (216 / 24389) t then Rpower t (/ 3) else (24389 / 27 * t + 16) / 116.
(* and its inverse *)
Definition cie_g (u : R) : R :=
  if Rlt_dec (6 / 29) u then u ^ 3 else (116 * u - 16) * 27 / 24389.

Lemma cube_root_pow t : 0 < t -> Rpower t (/ 3) ^ 3 = t.
Proof.
  intro H. rewrite <- Rpower_pow by apply Rpower_gt0. rewrite Rpower_inv; [reflexivity|exact H|cbn; field].
Qed.
Lemma pow_cube_root u : 0 < u -> Rpower (u ^ 3) (/ 3) = u.
Proof.
  intro H. rewrite <- Rpower_pow by exact H. rewrite Rpower_inv; [reflexivity|exact H|cbn; field].
Qed.
Lemma cube_gt u c : 0 < c -> (c ^ 3 < u ^ 3 <-> c < u).
Proof.
  intro Hc. split; intro H.
  - destruct (Rlt_dec c u) as [L|L]; [exact L|]. apply Rnot_lt_le in L. exfalso.
    destruct (Rle_dec 0 u) as [P|P].
    + assert (u ^ 3 <= c ^ 3) by (apply pow_incr; lra). lra.
    + apply Rnot_le_lt in P. assert (0 < c ^ 3) by (apply pow_lt, Hc).
      assert (u ^ 3 < 0) by (replace (u ^ 3) with (- (- u) ^ 3) by ring; assert (0 < (- u) ^ 3) by (apply pow_lt; lra); lra).
      lra.
  - replace (c ^ 3) with (c * c * c) by ring. replace (u ^ 3) with (u * u * u) by ring.
    assert (c * c < u * u) by nra. nra.
Qed.
Lemma eps_cube : 216 / 24389 = (6 / 29) ^ 3.
Proof. lra. Qed.
Lemma cie_f_gt t : 216 / 24389 < t -> 6 / 29 < cie_f t.
Proof.
  intro H. unfold cie_f. destruct (Rlt_dec _ _); [|lra].
  rewrite <- (pow_cube_root (6 / 29)) by lra. rewrite <- eps_cube. apply Rpower_lt; lra.
Qed.
Lemma cie_f_le t : t <= 216 / 24389 -> cie_f t <= 6 / 29.
Proof. intro H. unfold cie_f. destruct (Rlt_dec _ _); lra. Qed.
Lemma cie_gf t : cie_g (cie_f t) = t.
Proof.
  destruct (Rlt_dec (216 / 24389) t) as [H|H].
  - pose proof (cie_f_gt t H) as G. unfold cie_g. destruct (Rlt_dec _ _); [|lra].
    unfold cie_f. destruct (Rlt_dec _ _); [|lra]. apply cube_root_pow. lra.
  - apply Rnot_lt_le in H. pose proof (cie_f_le t H) as G. unfold cie_g. destruct (Rlt_dec _ _); [lra|].
    unfold cie_f. destruct (Rlt_dec _ _); lra.
Qed.
Lemma cie_fg u : cie_f (cie_g u) = u.
Proof.
  destruct (Rlt_dec (6 / 29) u) as [H|H].
  - unfold cie_g. destruct (Rlt_dec _ _); [|lra].
    assert (216 / 24389 < u ^ 3). { rewrite eps_cube. apply cube_gt; lra. }
    unfold cie_f. destruct (Rlt_dec _ _); [|lra]. apply pow_cube_root. lra.
  - apply Rnot_lt_le in H. unfold cie_g. destruct (Rlt_dec _ _); [lra|].
    unfold cie_f. destruct (Rlt_dec _ _); lra.
Qed.
Lemma cie_f_incr s t : s < t -> cie_f s < cie_f t.
Proof.
  intro H. destruct (Rlt_dec (216 / 24389) t) as [Ht|Ht].
  - destruct (Rlt_dec (216 / 24389) s) as [Hs|Hs].
    + unfold cie_f. destruct (Rlt_dec _ s); [|lra]. destruct (Rlt_dec _ t); [|lra]. apply Rpower_lt; lra.
    + apply Rnot_lt_le in Hs. pose proof (cie_f_gt t Ht). pose proof (cie_f_le s Hs). lra.
  - unfold cie_f. destruct (Rlt_dec _ s); [lra|]. destruct (Rlt_dec _ t); [lra|]. lra.
Qed.

Section Fin.
Context {K : XConst}.

Lemma lab_epsilon_fin : lab_epsilon = Fin (216 / 24389).
Proof. unfold lab_epsilon. xs. rewrite x_div by (q2r; lra). apply (f_equal Fin). q2r; lra. Qed.
Lemma lab_kappa_fin : lab_kappa = Fin (24389 / 27).
Proof. unfold lab_kappa. xs. rewrite x_div by (q2r; lra). apply (f_equal Fin). q2r; lra. Qed.
Lemma lab_f_fin t : lab_f (Fin t) = Fin (cie_f t).
Proof.
  unfold lab_f, cie_f. rewrite lab_epsilon_fin, lab_kappa_fin. xs.
  unfold Rltb. destruct (Rlt_dec _ t) as [H|H].
  - rewrite x_div by (q2r; lra). rewrite x_powf by lra.
    replace (Q2R 1.0 / Q2R 3.0) with (/ 3) by (q2r; lra). reflexivity.
  - rewrite x_div by (q2r; lra). apply (f_equal Fin). q2r; lra.
Qed.

Definition to_lab (v w : vec) : vec :=
  match v, w with
  | (x, y, z), (wx, wy, wz) =>
      (116 * cie_f (y / wy) - 16, 500 * (cie_f (x / wx) - cie_f (y / wy)),
       200 * (cie_f (y / wy) - cie_f (z / wz)))
  end.
Definition of_lab (c w : vec) : vec :=
  match c, w with
  | (L, a, b), (wx, wy, wz) =>
      (cie_g (a / 500 + (L + 16) / 116) * wx, cie_g ((L + 16) / 116) * wy,
       cie_g ((L + 16) / 116 - b / 200) * wz)
  end.
Definition white_ok (w : vec) : Prop := match w with (x, y, z) => x <> 0 /\ y <> 0 /\ z <> 0 end.

Lemma xyz_to_lab_fin v w : white_ok w -> xyz_to_lab (FinXyz v) (FinXyz w) = FinLab (to_lab v w).
Proof.
  destruct v as [[x y] z], w as [[wx wy] wz]. intros (Hx & Hy & Hz).
  unfold xyz_to_lab, xyz_div, FinXyz. cbn [xyz_x xyz_y xyz_z].
  rewrite !x_div by assumption. rewrite !lab_f_fin. xs. cbn [FinLab to_lab].
  f_equal; apply (f_equal Fin); q2r; lra.
Qed.
Lemma lab_to_xyz_fin c w : lab_to_xyz (FinLab c) (FinXyz w) = FinXyz (of_lab c w).
Proof.
  destruct c as [[L a] b], w as [[wx wy] wz]. unfold lab_to_xyz, FinLab, FinXyz. cbn [lab_L lab_a lab_b].
  rewrite lab_epsilon_fin, lab_kappa_fin. xs.
  rewrite !x_div by (q2r; lra). xs. rewrite !x_div by (q2r; lra).
  replace (Q2R 16.0) with 16 by (q2r; lra). replace (Q2R 116.0) with 116 by (q2r; lra).
  replace (Q2R 500.0) with 500 by (q2r; lra). replace (Q2R 200.0) with 200 by (q2r; lra).
  assert (A : forall u, (if Rltb (216 / 24389) (u ^ 3) then Fin (u ^ 3) else Fin ((116 * u - 16) / (24389 / 27))) = Fin (cie_g u)).
  { intro u. unfold cie_g. destruct (Rltb_spec (216 / 24389) (u ^ 3)) as [H|H]; rewrite eps_cube, cube_gt in H by lra.
    - destruct (Rlt_dec _ u); [reflexivity|contradiction].
    - destruct (Rlt_dec _ u); [contradiction|]. apply (f_equal Fin). field. }
  rewrite !A.
  assert (B : (if Rltb (24389 / 27 * (216 / 24389)) L then Fin (((L + 16) / 116) ^ 3) else Fin (L / (24389 / 27)))
    = Fin (cie_g ((L + 16) / 116))).
  { unfold cie_g. destruct (Rltb_spec (24389 / 27 * (216 / 24389)) L) as [H|H]; destruct (Rlt_dec _ ((L + 16) / 116));
      try lra; [reflexivity|]. apply (f_equal Fin). field. }
  rewrite B. unfold xyz_mul. cbn [xyz_x xyz_y xyz_z]. xs. reflexivity.
Qed.
End Fin.

(* ---- polar coordinates ---- *)
Lemma Ratan2_bounds y x : - PI < Ratan2 y x <= PI.
Proof.
  pose proof PI_RGT_0. unfold Ratan2. pose proof (atan_bound (y / x)).
  destruct (Rlt_dec 0 x); [lra|]. destruct (Rlt_dec x 0) as [Hx|Hx].
  - destruct (Rle_dec 0 y) as [Hy|Hy].
    + assert (atan (y / x) <= 0).
      { destruct (Rle_lt_or_eq_dec 0 y Hy) as [P| <-].
        - left. rewrite <- atan_0. apply atan_increasing. pose proof (Rinv_lt_0_compat x Hx). unfold Rdiv. nra.
        - unfold Rdiv. rewrite Rmult_0_l, atan_0. lra. }
      lra.
    + assert (0 < atan (y / x)).
      { rewrite <- atan_0. apply atan_increasing. pose proof (Rinv_lt_0_compat x Hx). unfold Rdiv. nra. }
      lra.
  - destruct (Rlt_dec 0 y); [lra|]. destruct (Rlt_dec y 0); lra.
Qed.

Lemma cos_atan_hyp x y : x <> 0 -> cos (atan (y / x)) = Rabs x / sqrt (x * x + y * y).
Proof.
  intro H. rewrite cos_atan. assert (P : 0 < x * x + y * y) by nra.
  assert (A : 1 + (y / x)² = (x * x + y * y) / (x * x)) by (unfold Rsqr; field; exact H).
  rewrite A. rewrite sqrt_div_alt by nra. rewrite (sqrt_Rsqr_abs x : sqrt (x * x) = Rabs x).
  assert (sqrt (x * x + y * y) <> 0) by (apply Rgt_not_eq, sqrt_lt_R0, P).
  field. split; [assumption|]. apply Rabs_no_R0, H.
Qed.
Lemma sin_atan_hyp x y : x <> 0 -> sin (atan (y / x)) = y / x * (Rabs x / sqrt (x * x + y * y)).
Proof.
  intro H. rewrite <- cos_atan_hyp by exact H.
  assert (C : cos (atan (y / x)) <> 0). { pose proof (atan_bound (y / x)). apply Rgt_not_eq, cos_gt_0; lra. }
  rewrite <- (tan_atan (y / x)) at 2. unfold tan. field. exact C.
Qed.

Lemma polar x y : sqrt (x * x + y * y) * cos (Ratan2 y x) = x /\ sqrt (x * x + y * y) * sin (Ratan2 y x) = y.
Proof.
  destruct (Req_dec x 0) as [->|Hx].
  - replace (0 * 0 + y * y) with (y * y) by ring. rewrite (sqrt_Rsqr_abs y : sqrt (y * y) = Rabs y). unfold Ratan2.
    destruct (Rlt_dec 0 0); [lra|]. destruct (Rlt_dec 0 y).
    + rewrite cos_PI2, sin_PI2, Rabs_right by lra. lra.
    + destruct (Rlt_dec y 0).
      * rewrite cos_neg, sin_neg, cos_PI2, sin_PI2, Rabs_left by lra. lra.
      * replace y with 0 by lra. rewrite Rabs_R0. lra.
  - assert (P : 0 < sqrt (x * x + y * y)) by (apply sqrt_lt_R0; nra).
    unfold Ratan2. destruct (Rlt_dec 0 x) as [H|H].
    + rewrite cos_atan_hyp, sin_atan_hyp, Rabs_right by lra. split; field; lra.
    + destruct (Rlt_dec x 0) as [H'|H']; [|lra]. 
      assert (E1 : cos (atan (y / x) + PI) = - cos (atan (y / x))) by apply neg_cos.
      assert (E2 : sin (atan (y / x) + PI) = - sin (atan (y / x))) by apply neg_sin.
      assert (E3 : cos (atan (y / x) - PI) = - cos (atan (y / x))).
      { rewrite cos_minus, cos_PI, sin_PI. ring. }
      assert (E4 : sin (atan (y / x) - PI) = - sin (atan (y / x))).
      { rewrite sin_minus, cos_PI, sin_PI. ring. }
      destruct (Rle_dec 0 y); rewrite ?E1, ?E2, ?E3, ?E4, cos_atan_hyp, sin_atan_hyp, Rabs_left by lra; split; field; lra.
Qed.

(* ---- CIEDE2000 over the reals ---- *)
Definition hyp (x y : R) : R := sqrt (x * x + y * y).
Definition sat7 (C : R) : R := sqrt (C ^ 7 / (C ^ 7 + 25 ^ 7)).
Definition hue (b a : R) : R :=
  if Rlt_dec (Ratan2 b a * 180 / PI) 0 then Ratan2 b a * 180 / PI + 360 else Ratan2 b a * 180 / PI.
Definition hue_diff (CC h1 h2 : R) : R :=
  if Req_EM_T CC 0 then 0 else if Rle_dec (Rabs (h2 - h1)) 180 then h2 - h1
  else if Rlt_dec 180 (h2 - h1) then h2 - h1 - 360 else h2 - h1 + 360.
Definition hue_mean (CC h1 h2 : R) : R :=
  if Req_EM_T CC 0 then h1 + h2 else if Rle_dec (Rabs (h1 - h2)) 180 then (h1 + h2) / 2
  else if Rlt_dec (h1 + h2) 360 then (h1 + h2 + 360) / 2 else (h1 + h2 - 360) / 2.
Definition de_T (h : R) : R :=
  1 - 0.17 * cos ((h - 30) * PI / 180) + 0.24 * cos (2 * h * PI / 180)
    + 0.32 * cos ((3 * h + 6) * PI / 180) - 0.20 * cos ((4 * h - 63) * PI / 180).
Definition de_RT (h C : R) : R :=
  - sin (2 * (30 * exp (- ((h - 275) / 25 * ((h - 275) / 25)))) * PI / 180) * (2 * sat7 C).
Definition de_SL (L : R) : R := 1 + 0.015 * (L - 50) ^ 2 / sqrt (20 + (L - 50) ^ 2).

Definition gfac (a1 b1 a2 b2 : R) : R := 0.5 * (1 - sat7 ((hyp a1 b1 + hyp a2 b2) / 2)).
Definition de2000 (c1 c2 : vec) : R :=
  match c1, c2 with
  | (L1, a1, b1), (L2, a2, b2) =>
      let k := 1 + gfac a1 b1 a2 b2 in
      let C1 := hyp (k * a1) b1 in
      let C2 := hyp (k * a2) b2 in
      let h1 := hue b1 (k * a1) in
      let h2 := hue b2 (k * a2) in
      let C := (C1 + C2) / 2 in
      let h := hue_mean (C1 * C2) h1 h2 in
      let dL := (L2 - L1) / de_SL ((L1 + L2) / 2) in
      let dC := (C2 - C1) / (1 + 0.045 * C) in
      let dH := 2 * sqrt (C1 * C2) * sin (hue_diff (C1 * C2) h1 h2 / 2 * PI / 180) / (1 + 0.015 * C * de_T h) in
      sqrt (dL * dL + dC * dC + dH * dH + de_RT h C * (dC * dH))
  end.

Lemma hyp_nonneg x y : 0 <= hyp x y. Proof. apply sqrt_pos. Qed.
Lemma pow7_nonneg C : 0 <= C -> 0 <= C ^ 7. Proof. intro; apply pow_le; assumption. Qed.
Lemma sat7_arg C : 0 <= C -> 0 < C ^ 7 + 25 ^ 7 /\ 0 <= C ^ 7 / (C ^ 7 + 25 ^ 7) < 1.
Proof.
  intro H. pose proof (pow7_nonneg C H). assert (P : 0 < C ^ 7 + 25 ^ 7) by lra.
  split; [exact P|]. split.
  - apply Rmult_le_pos; [lra|left; apply Rinv_0_lt_compat, P].
  - apply (Rmult_lt_reg_r (C ^ 7 + 25 ^ 7)); [exact P|]. unfold Rdiv. rewrite Rmult_assoc, Rinv_l by lra. lra.
Qed.
Lemma sat7_bounds C : 0 <= C -> 0 <= sat7 C < 1.
Proof.
  intro H. destruct (sat7_arg C H) as (_ & A & B). split; [apply sqrt_pos|].
  unfold sat7. rewrite <- sqrt_1 at 1. apply sqrt_lt_1; lra.
Qed.
Lemma gfac_pos a1 b1 a2 b2 : 0 < 1 + gfac a1 b1 a2 b2.
Proof.
  unfold gfac. pose proof (hyp_nonneg a1 b1). pose proof (hyp_nonneg a2 b2).
  pose proof (sat7_bounds ((hyp a1 b1 + hyp a2 b2) / 2) ltac:(lra)). lra.
Qed.
Lemma de_T_pos h : 0.07 <= de_T h.
Proof.
  unfold de_T. pose proof (COS_bound ((h - 30) * PI / 180)). pose proof (COS_bound (2 * h * PI / 180)).
  pose proof (COS_bound ((3 * h + 6) * PI / 180)). pose proof (COS_bound ((4 * h - 63) * PI / 180)). lra.
Qed.
Lemma de_RT_bound h C : 0 <= C -> -2 < de_RT h C < 2.
Proof.
  intro H. unfold de_RT. pose proof (sat7_bounds C H) as [S0 S1].
  set (s := sin _). assert (-1 <= s <= 1) by apply SIN_bound. nra.
Qed.
Lemma de_SL_sqrt L : 0 < sqrt (20 + (L - 50) ^ 2).
Proof. apply sqrt_lt_R0. pose proof (pow2_ge_0 (L - 50)). lra. Qed.
Lemma de_SL_ge L : 1 <= de_SL L.
Proof.
  unfold de_SL. pose proof (de_SL_sqrt L) as P. pose proof (pow2_ge_0 (L - 50)).
  assert (0 <= 0.015 * (L - 50) ^ 2 / sqrt (20 + (L - 50) ^ 2)); [|lra].
  apply Rmult_le_pos; [nra|left; apply Rinv_0_lt_compat, P].
Qed.
Lemma SH_ge C h : 0 <= C -> 1 <= 1 + 0.015 * C * de_T h.
Proof. intro H. pose proof (de_T_pos h). nra. Qed.
(* a quadratic form with |r| < 2 *)
Lemma form_pos x y z r : -2 < r < 2 -> 0 <= x * x + y * y + z * z + r * (y * z).
Proof.
  intro H. assert (Hx : 0 <= x * x) by nra.
  assert (Hyz : 0 <= y * y + z * z + r * (y * z)); [|lra].
  replace (y * y + z * z + r * (y * z)) with ((y + r / 2 * z) * (y + r / 2 * z) + (1 - r / 2 * (r / 2)) * (z * z)) by field.
  apply Rplus_le_le_0_compat; [apply Rle_0_sqr|]. apply Rmult_le_pos; [nra|apply Rle_0_sqr].
Qed.
Lemma form_zero x y z r : -2 < r < 2 -> x * x + y * y + z * z + r * (y * z) = 0 -> x = 0 /\ y = 0 /\ z = 0.
Proof.
  intros H E.
  replace (y * y) with ((y + r / 2 * z) * (y + r / 2 * z) + (1 - r / 2 * (r / 2)) * (z * z) - z * z - r * (y * z)) in E by field.
  assert (D : 0 < 1 - r / 2 * (r / 2)) by nra.
  set (u := y + r / 2 * z) in *. set (d := 1 - r / 2 * (r / 2)) in *.
  assert (Hx : 0 <= x * x) by nra. assert (Hu : 0 <= u * u) by nra. assert (Hz : 0 <= z * z) by nra.
  assert (0 <= d * (z * z)) by nra.
  assert (Ez : d * (z * z) = 0) by lra. assert (Ex : x * x = 0) by lra. assert (Eu : u * u = 0) by lra.
  assert (z = 0). { apply Rmult_integral in Ez as [|Ez]; [lra|]. apply Rmult_integral in Ez; tauto. }
  assert (x = 0) by (apply Rmult_integral in Ex; tauto).
  assert (u = 0) by (apply Rmult_integral in Eu; tauto).
  subst z. repeat split; try assumption. unfold u in *. lra.
Qed.

Section DeltaE.
Context {K : XConst}.

Tactic Notation "step" constr(r) "by" tactic3(tac) :=
  lazymatch goal with
  | |- (let x := ?v in @?b x) = ?rhs =>
      let H := fresh in assert (H : v = Fin r) by tac; change (b v = rhs); rewrite H; clear H; cbv beta
  end.

Lemma lit2 q r : Q2R q = r -> (rlit q : xr) = Fin r.
Proof. intros <-. reflexivity. Qed.

Lemma delta_E_2000_fin c1 c2 : delta_E_2000 (FinLab c1) (FinLab c2) = Fin (de2000 c1 c2).
Proof.
  destruct c1 as [[L1 a1] b1], c2 as [[L2 a2] b2].
  assert (q0 : Q2R 0.0 = 0) by (clear; q2r; lra).
  assert (q1 : Q2R 1.0 = 1) by (clear; q2r; lra).
  assert (q2 : Q2R 2.0 = 2) by (clear; q2r; lra).
  assert (q25 : Q2R 25.0 = 25) by (clear; q2r; lra).
  assert (q180 : Q2R 180.0 = 180) by (clear; q2r; lra).
  assert (q360 : Q2R 360.0 = 360) by (clear; q2r; lra).
  assert (q30 : Q2R 30.0 = 30) by (clear; q2r; lra).
  assert (q3 : Q2R 3.0 = 3) by (clear; q2r; lra).
  assert (q4 : Q2R 4.0 = 4) by (clear; q2r; lra).
  assert (q6 : Q2R 6.0 = 6) by (clear; q2r; lra).
  assert (q63 : Q2R 63.0 = 63) by (clear; q2r; lra).
  assert (q275 : Q2R 275.0 = 275) by (clear; q2r; lra).
  assert (q50 : Q2R 50.0 = 50) by (clear; q2r; lra).
  assert (q20 : Q2R 20.0 = 20) by (clear; q2r; lra).
  cbv beta delta [delta_E_2000].
  repeat match goal with |- context [rlit ?q] => change (rlit q : xr) with (Fin (Q2R q)) end.
  rewrite q0, q1, q2, q25, q180, q360, q30, q3, q4, q6, q63, q275, q50, q20.
  clear q0 q1 q2 q25 q180 q360 q30 q3 q4 q6 q63 q275 q50 q20.
  step L1 by reflexivity. step a1 by reflexivity. step b1 by reflexivity.
  step L2 by reflexivity. step a2 by reflexivity. step b2 by reflexivity.
  step (hyp a1 b1) by reflexivity. step (hyp a2 b2) by reflexivity.
  pose proof (hyp_nonneg a1 b1) as Ha. pose proof (hyp_nonneg a2 b2) as Hb.
  step ((hyp a1 b1 + hyp a2 b2) / 2) by (rewrite x_add, x_div by lra; reflexivity).
  destruct (sat7_arg ((hyp a1 b1 + hyp a2 b2) / 2) ltac:(lra)) as (D & N & _).
  step (gfac a1 b1 a2 b2) by (rewrite !x_powi7, x_add, x_div by lra; rewrite x_sqrt by exact N; reflexivity).
  clear D N Ha Hb.
  cbv beta iota delta [de2000]. set (k := 1 + gfac a1 b1 a2 b2).
  step (k * a1) by reflexivity. step (k * a2) by reflexivity.
  set (C1 := hyp (k * a1) b1). set (C2 := hyp (k * a2) b2).
  step C1 by reflexivity. step C2 by reflexivity.
  assert (Hh : forall b a, de_hue (Fin b) (Fin a) = Fin (hue b a)).
  { intros b a. unfold de_hue, hue. rewrite x_atan2, x_deg.
    change (rlit 0.0 : xr) with (Fin (Q2R 0.0)). change (rlit 360.0 : xr) with (Fin (Q2R 360.0)).
    replace (Q2R 0.0) with 0 by (clear; q2r; lra). replace (Q2R 360.0) with 360 by (clear; q2r; lra).
    rewrite x_lt. unfold Rltb. destruct (Rlt_dec _ _); reflexivity. }
  set (h1 := hue b1 (k * a1)). set (h2 := hue b2 (k * a2)).
  step h1 by apply Hh. step h2 by apply Hh. clear Hh.
  assert (P1 : 0 <= C1) by apply hyp_nonneg. assert (P2 : 0 <= C2) by apply hyp_nonneg.
  step (L2 - L1) by reflexivity. step (C2 - C1) by reflexivity. step (h2 - h1) by reflexivity.
  step (hue_diff (C1 * C2) h1 h2) by
    (rewrite x_mul, x_eq, x_abs, x_le, x_lt; unfold hue_diff, Reqb, Rleb, Rltb;
     destruct (Req_EM_T _ _); [reflexivity|]; destruct (Rle_dec _ _); [reflexivity|]; destruct (Rlt_dec _ _); reflexivity).
  assert (PC : 0 <= C1 * C2) by (apply Rmult_le_pos; assumption).
  step (2 * sqrt (C1 * C2) * sin (hue_diff (C1 * C2) h1 h2 / 2 * PI / 180)) by
    (rewrite x_mul, x_div by lra; rewrite x_sqrt by exact PC; reflexivity).
  step ((L1 + L2) / 2) by (rewrite x_add, x_div by lra; reflexivity).
  set (C := (C1 + C2) / 2).
  step C by (rewrite x_add, x_div by lra; reflexivity).
  step (Rabs (h1 - h2)) by reflexivity.
  set (h := hue_mean (C1 * C2) h1 h2).
  step h by
    (unfold h; rewrite x_mul, x_eq, x_le, x_add, x_lt, !x_add, !x_sub, !x_div by lra; unfold hue_mean, Reqb, Rleb, Rltb;
     destruct (Req_EM_T _ _); [reflexivity|]; destruct (Rle_dec _ _); [reflexivity|]; destruct (Rlt_dec _ _); reflexivity).
  assert (HC : 0 <= C) by (unfold C; lra).
  step (de_T h) by reflexivity.
  step (30 * exp (- ((h - 275) / 25 * ((h - 275) / 25)))) by
    (unfold sqr; rewrite x_sub, x_div by lra; reflexivity).
  destruct (sat7_arg C HC) as (D & N & _).
  step (2 * sat7 C) by (rewrite !x_powi7, x_add, x_div by lra; rewrite x_sqrt by exact N; reflexivity).
  pose proof (de_SL_sqrt ((L1 + L2) / 2)) as QL.
  step (de_SL ((L1 + L2) / 2)) by
    (rewrite x_sub, x_powi2, x_mul, x_add, x_sqrt by (pose proof (pow2_ge_0 ((L1 + L2) / 2 - 50)); lra); rewrite x_div by lra; reflexivity).
  step (1 + 0.045 * C) by reflexivity.
  pose proof (SH_ge C h HC) as QH.
  step (1 + 0.015 * C * de_T h) by reflexivity.
  step (de_RT h C) by reflexivity.
  step 1 by reflexivity. step 1 by reflexivity. step 1 by reflexivity.
  pose proof (de_SL_ge ((L1 + L2) / 2)) as QL1.
  pose proof (de_RT_bound h C HC) as QR.
  rewrite !x_mul, !Rmult_1_l, !x_div by lra. unfold sqr. rewrite !x_mul, !x_add.
  rewrite x_sqrt by (apply form_pos, QR). reflexivity.
Qed.
End DeltaE.
