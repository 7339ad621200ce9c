(* C109: daylight chromaticities from a correlated colour temperature, in floating point *)
From Coq Require Import Reals ZArith QArith Qreals Lra Lia Bool List.
From Flocq Require Import Core BinarySingleNaN.
From Verif Require Import Outcome RealOps MathModel ColorModel IllumModel XReal FloatInst FloatProofs ErrProofs RelErr CurveProofs PropCurve.
Import ListNotations.
Open Scope R_scope.
Local Notation f64 := (binary_float 53 1024).
Local Notation f32 := (binary_float 24 128).

(* the CIE daylight locus: x from the temperature, y from x *)
Definition cie_x (T : R) : R :=
  if Rle_dec T 7000 then -4.6070 * (10 ^ 9 / T ^ 3) + 2.9678 * (10 ^ 6 / T ^ 2) + 0.09911 * (10 ^ 3 / T) + 0.244063
  else -2.0064 * (10 ^ 9 / T ^ 3) + 1.9018 * (10 ^ 6 / T ^ 2) + 0.24748 * (10 ^ 3 / T) + 0.237040.
Definition cie_y (x : R) : R := -3 * x ^ 2 + 2.87 * x - 0.275.

Section Fmt.
Context (prec emax : Z) {Hp : Prec_gt_0 prec} {He : Prec_lt_emax prec emax}.
Notation fl := (binary_float prec emax).
Notation u := (bpow radix2 (- prec)).
Notation eta := (bpow radix2 (2 - emax - prec)).
Notation rnd := (round radix2 (SpecFloat.fexp prec emax) ZnearestE).
Context (P5 : (24 <= prec)%Z) (E5 : (128 <= emax)%Z).

(* ---- operations on magnitudes up to 2^60 ---- *)
Notation vast := (bpow radix2 60).
Lemma vast_val : vast = 1152921504606846976. Proof. reflexivity. Qed.
Lemma vast_rnd x : Rabs x <= vast -> Rabs (rnd x) < bpow radix2 emax.
Proof.
  intro H. destruct (CurveProofs.u24 prec P5) as [U0 U]. destruct (CurveProofs.eta_le prec emax E5) as [T0 T]. pose proof (rnd_any prec emax x) as R.
  assert (G : 4 * vast <= bpow radix2 emax) by (change 4 with (bpow radix2 2); rewrite <- bpow_plus; apply bpow_le; lia). pose proof vast_val as VV.
  assert (u * Rabs x <= / 10000000 * vast) by (apply Rmult_le_compat; try apply Rabs_pos; lra). replace (rnd x) with (x + (rnd x - x)) by ring. eapply Rle_lt_trans; [apply Rabs_triang|]. lra.
Qed.
Lemma gmul (x y : fl) : is_finite x = true -> is_finite y = true -> Rabs (B2R x * B2R y) <= vast -> is_finite (Bmult mode_NE x y) = true /\ Rabs (B2R (Bmult mode_NE x y) - B2R x * B2R y) <= u * Rabs (B2R x * B2R y) + eta.
Proof. intros X Y H. assert (F : is_finite (Bmult mode_NE x y) = true) by (apply mult_small; try assumption; exact (vast_rnd _ H)). split; [exact F|]. apply mult_fin in F. destruct F as (_ & _ & E). rewrite E. exact (rnd_any prec emax _). Qed.
Lemma gplus (x y : fl) : is_finite x = true -> is_finite y = true -> Rabs (B2R x + B2R y) <= vast -> is_finite (Bplus mode_NE x y) = true /\ Rabs (B2R (Bplus mode_NE x y) - (B2R x + B2R y)) <= u * Rabs (B2R x + B2R y).
Proof. intros X Y H. assert (F : is_finite (Bplus mode_NE x y) = true) by (apply plus_small; try assumption; exact (vast_rnd _ H)). split; [exact F|]. apply plus_fin in F. destruct F as (_ & _ & E). rewrite E. exact (rnd_sum prec emax _ _). Qed.
Lemma gdiv (x y : fl) : is_finite x = true -> B2R y <> 0 -> Rabs (B2R x / B2R y) <= vast -> is_finite (Bdiv mode_NE x y) = true /\ Rabs (B2R (Bdiv mode_NE x y) - B2R x / B2R y) <= u * Rabs (B2R x / B2R y) + eta.
Proof. intros X Y H. destruct (fdiv prec emax x y X Y (vast_rnd _ H)) as [F E]. split; [exact F|]. rewrite E. exact (rnd_any prec emax _). Qed.
Lemma gminus (x y : fl) : is_finite x = true -> is_finite y = true -> Rabs (B2R x - B2R y) <= vast -> is_finite (Bminus mode_NE x y) = true /\ Rabs (B2R (Bminus mode_NE x y) - (B2R x - B2R y)) <= u * Rabs (B2R x - B2R y).
Proof. intros X Y H. pose proof (Bminus_correct prec emax _ _ mode_NE x y X Y) as C. cbn [round_mode] in C. rewrite Rlt_bool_true in C by exact (vast_rnd _ H). destruct C as (C1 & C2 & _). rewrite C1. split; [exact C2|exact (rnd_diff prec emax x y)]. Qed.

(* ---- literals of any size from 0.001 to 10^10 ---- *)
Definition lit_wide (lit : Q -> fl) : Prop := forall q, 0.001 <= Q2R q <= 10000000000 -> is_finite (lit q) = true /\ rel (1.01 * u) (B2R (lit q)) (Q2R q).
Lemma litd_wide : lit_wide (b_of_Q prec emax).
Proof.
  intros q H. pose proof (tiny_le emax E5) as T. pose proof vast_val as VV. destruct (b_of_Q_correct prec emax q) as (V & F & _); [apply vast_rnd, Rabs_le; lra|]. split; [exact F|]. rewrite V. destruct (CurveProofs.u24 prec P5).
  eapply rel_weaken; [apply (rnd_rel prec emax); lra|lra|lra].
Qed.

Context (L : libm fl) (lit : Q -> fl) (LW : lit_wide lit).
Notation ops := (b_ops prec emax L lit).
Definition lit_exact (q : Q) (r : R) : Prop := is_finite (lit q) = true /\ B2R (lit q) = r.
Context (L1 : lit_exact 1.0%Q 1) (L3 : lit_exact 3.0%Q 3) (L4 : lit_exact 4000.0%Q 4000) (L7 : lit_exact 7000.0%Q 7000) (L25 : lit_exact 25000.0%Q 25000).

Lemma wide q r : Q2R q = r -> 0.001 <= r <= 10000000000 -> is_finite (lit q) = true /\ rel (1.01 * u) (B2R (lit q)) r.
Proof. intros <- H. apply LW, H. Qed.

Lemma quot_small (x y : fl) X Y e f : rel (e * u) (B2R x) X -> rel (f * u) (B2R y) Y -> 0 <= e <= 10 -> 0 <= f <= 10 -> 0 < X -> 0 < Y -> 0.00001 <= X / Y <= 1000 -> Rabs (B2R x / B2R y) <= vast.
Proof.
  intros RX RY E G X0 Y0 Q. destruct (CurveProofs.u24 prec P5) as [U0 U]. assert (EU : 0 <= e * u <= / 1000000) by (clear - E U0 U; nra). assert (FU : 0 <= f * u <= / 1000000) by (clear - G U0 U; nra). pose proof vast_val as VV.
  pose proof (rel_div (e * u) (f * u) _ _ _ _ RX RY ltac:(lra) ltac:(lra) ltac:(lra) Y0) as D. apply rel_bounds in D. set (d := 1.03 * (e * u + f * u)) in *. assert (DU : 0 <= d <= / 100000) by (unfold d; lra). assert (DQ : 0 <= d * (X / Y) <= / 100000 * (X / Y)) by (split; [apply Rmult_le_pos; lra|apply Rmult_le_compat_r; lra]). apply Rabs_le. lra.
Qed.
(* a quotient of positive numbers known up to relative errors *)
Lemma quot (x y : fl) X Y e f : is_finite x = true -> rel (e * u) (B2R x) X -> rel (f * u) (B2R y) Y -> 0 <= e <= 10 -> 0 <= f <= 10 -> 0 < X -> 0 < Y -> 0.00001 <= X / Y <= 1000 ->
  is_finite (Bdiv mode_NE x y) = true /\ rel ((1.03 * (e + f) + 1.01) * u) (B2R (Bdiv mode_NE x y)) (X / Y).
Proof.
  intros F RX RY E G X0 Y0 Q. destruct (CurveProofs.u24 prec P5) as [U0 U]. destruct (CurveProofs.eta_le prec emax E5) as [T0 T].
  assert (EU : 0 <= e * u <= / 1000000) by (clear - E U0 U; nra). assert (FU : 0 <= f * u <= / 1000000) by (clear - G U0 U; nra).
  pose proof (rel_div (e * u) (f * u) _ _ _ _ RX RY ltac:(lra) ltac:(lra) ltac:(lra) Y0) as D. pose proof (rel_pos (f * u) _ _ ltac:(lra) Y0 RY) as YP. pose proof (rel_bounds _ _ _ D) as B.
  set (q := X / Y) in *. set (v := B2R x / B2R y) in *. set (d := 1.03 * (e * u + f * u)) in *. assert (DU : 0 <= d <= / 100000) by (unfold d; lra).
  assert (DQ : 0 <= d * q <= / 100000 * q) by (split; [apply Rmult_le_pos; lra|apply Rmult_le_compat_r; lra]). assert (V : 0 < v) by lra. pose proof vast_val as VV.
  destruct (gdiv x y F ltac:(lra)) as [H1 H2]; [fold v; rewrite Rabs_pos_eq by lra; lra|]. split; [exact H1|]. fold v in H2. rewrite (Rabs_pos_eq v) in H2 by lra.
  unfold rel in *. fold d in D. set (w := B2R (Bdiv mode_NE x y)) in *. replace (w - q) with ((w - v) + (v - q)) by ring. eapply Rle_trans; [apply Rabs_triang|].
  assert (UQ : u * 0.00001 <= u * q) by (apply Rmult_le_compat_l; lra). assert (UV : u * v <= u * (1.00001 * q)) by (apply Rmult_le_compat_l; lra).
  replace ((1.03 * (e + f) + 1.01) * u * q) with (d * q + 1.01 * (u * q)) by (unfold d; ring). lra.
Qed.

Lemma neg_div (x y : fl) : is_finite x = true -> B2R y <> 0 -> is_finite (Bdiv mode_NE x y) = true -> Rabs (B2R x / B2R y) <= vast -> is_finite (Bdiv mode_NE (Bopp x) y) = true /\ B2R (Bdiv mode_NE (Bopp x) y) = - B2R (Bdiv mode_NE x y).
Proof.
  intros F Y _ H. destruct (fdiv prec emax x y F Y (vast_rnd _ H)) as [_ E]. assert (N : B2R (Bopp x) / B2R y = - (B2R x / B2R y)) by (rewrite B2R_Bopp; unfold Rdiv; ring).
  destruct (fdiv prec emax (Bopp x) y ltac:(rewrite is_finite_Bopp; exact F) Y) as [G1 G2]; [rewrite N; apply vast_rnd; rewrite Rabs_Ropp; exact H|]. split; [exact G1|]. rewrite G2, N, E. apply round_NE_opp.
Qed.
Lemma not_nan (z : fl) : is_finite z = true -> is_nan z = false.
Proof. destruct z; try discriminate; reflexivity. Qed.
Lemma cmp_lt (x y : fl) : is_finite x = true -> is_finite y = true -> Bltb x y = Rlt_bool (B2R x) (B2R y).
Proof. intros X Y. rewrite (ev_ltb prec emax) by (apply not_nan; assumption). rewrite !(ev_fin prec emax) by assumption. reflexivity. Qed.
Lemma cmp_le (x y : fl) : is_finite x = true -> is_finite y = true -> Bleb x y = Rle_bool (B2R x) (B2R y).
Proof. intros X Y. rewrite (ev_leb prec emax) by (apply not_nan; assumption). rewrite !(ev_fin prec emax) by assumption. reflexivity. Qed.

(* the four terms added up *)
Lemma four (a b c d : fl) A B C D : is_finite a = true -> is_finite b = true -> is_finite c = true -> is_finite d = true ->
  0 <= A <= 0.0725 -> 0 <= B <= 0.186 -> 0 <= C <= 0.0355 -> 0.23 <= D <= 0.245 -> B - A <= 0.116 -> 
  Rabs (B2R a + A) <= 4.2 * u * A -> Rabs (B2R b - B) <= 3.2 * u * B -> Rabs (B2R c - C) <= 2.1 * u * C -> Rabs (B2R d - D) <= 1.01 * u * D ->
  let s := Bplus mode_NE (Bplus mode_NE (Bplus mode_NE a b) c) d in is_finite s = true /\ Rabs (B2R s - (- A + B + C + D)) <= 2 * u.
Proof.
  intros Fa Fb Fc Fd HA HB HC HD BA Ea Eb Ec Ed s. destruct (CurveProofs.u24 prec P5) as [U0 U]. pose proof vast_val as VV.
  assert (XA : 0 <= u * A <= 0.0725 * u) by (split; [apply Rmult_le_pos; lra|rewrite Rmult_comm; apply Rmult_le_compat_r; lra]).
  assert (XB : 0 <= u * B <= 0.186 * u) by (split; [apply Rmult_le_pos; lra|rewrite Rmult_comm; apply Rmult_le_compat_r; lra]).
  assert (XC : 0 <= u * C <= 0.0355 * u) by (split; [apply Rmult_le_pos; lra|rewrite Rmult_comm; apply Rmult_le_compat_r; lra]).
  assert (XD : 0 <= u * D <= 0.245 * u) by (split; [apply Rmult_le_pos; lra|rewrite Rmult_comm; apply Rmult_le_compat_r; lra]).
  apply Rabs_le_inv in Ea, Eb, Ec, Ed. unfold s. clear s.
  destruct (gplus a b Fa Fb) as [F1 H1]; [apply Rabs_le; lra|]. assert (M1 : Rabs (B2R a + B2R b) <= 0.117) by (apply Rabs_le; lra). set (s1 := Bplus mode_NE a b) in *.
  pose proof (Rmult_le_compat_l u _ _ (Rlt_le _ _ U0) M1) as N1. apply Rabs_le_inv in H1.
  destruct (gplus s1 c F1 Fc) as [F2 H2]; [apply Rabs_le; lra|]. assert (M2 : Rabs (B2R s1 + B2R c) <= 0.153) by (apply Rabs_le; lra). set (s2 := Bplus mode_NE s1 c) in *.
  pose proof (Rmult_le_compat_l u _ _ (Rlt_le _ _ U0) M2) as N2. apply Rabs_le_inv in H2.
  destruct (gplus s2 d F2 Fd) as [F3 H3]; [apply Rabs_le; lra|]. assert (M3 : Rabs (B2R s2 + B2R d) <= 0.398) by (apply Rabs_le; lra). set (s3 := Bplus mode_NE s2 d) in *.
  pose proof (Rmult_le_compat_l u _ _ (Rlt_le _ _ U0) M3) as N3. apply Rabs_le_inv in H3. split; [exact F3|]. apply Rabs_le. lra.
Qed.

(* the quadratic for y *)
Lemma curve_y (x : fl) X : is_finite x = true -> 0.24 <= X <= 0.39 -> Rabs (B2R x - X) <= 2 * u ->
  is_finite (@cct_y _ ops x) = true /\ Rabs (B2R (@cct_y _ ops x) - cie_y X) <= 8 * u.
Proof.
  intros F HX E. destruct (CurveProofs.u24 prec P5) as [U0 U]. destruct (CurveProofs.eta_le prec emax E5) as [T0 T]. pose proof vast_val as VV.
  destruct L3 as [F3 R3]. destruct (wide 2.870%Q 2.87 ltac:(clear; q2r; lra) ltac:(lra)) as [F2 R2]. destruct (wide 0.275%Q 0.275 ltac:(clear; q2r; lra) ltac:(lra)) as [F0 R0]. unfold rel in R2, R0. apply Rabs_le_inv in R2, R0.
  pose proof (Rabs_le_inv _ _ E) as E'. set (w := B2R x) in *. assert (W : 0.2399 <= w <= 0.3901) by lra. assert (WW : 0.05755 <= w * w <= 0.1522) by (clear - W; nra).
  unfold cct_y. cbn [rneg rmul radd rsub b_ops rlit].
  assert (FN : is_finite (Bopp (lit 3.0%Q)) = true) by (rewrite is_finite_Bopp; exact F3). assert (RN : B2R (Bopp (lit 3.0%Q)) = - 3) by (rewrite B2R_Bopp, R3; reflexivity).
  assert (UW : 0 <= u * w <= 0.3901 * u) by (split; [apply Rmult_le_pos; lra|rewrite Rmult_comm; apply Rmult_le_compat_r; lra]).
  assert (UWW : 0 <= u * (w * w) <= 0.1522 * u) by (split; [apply Rmult_le_pos; lra|rewrite Rmult_comm; apply Rmult_le_compat_r; lra]).
  destruct (gmul _ x FN F) as [G1 H1]; [rewrite RN; fold w; apply Rabs_le; lra|]. rewrite RN in H1. fold w in H1. rewrite (Rabs_left (- 3 * w)) in H1 by lra. set (p := Bmult mode_NE (Bopp (lit 3.0%Q)) x) in *. apply Rabs_le_inv in H1.
  assert (PW : Rabs (B2R p * w + 3 * (w * w)) <= 3.01 * (u * (w * w))). { replace (B2R p * w + 3 * (w * w)) with ((B2R p - - 3 * w) * w) by ring. rewrite Rabs_mult, (Rabs_pos_eq w) by lra. replace (3.01 * (u * (w * w))) with (3.01 * (u * w) * w) by ring. apply Rmult_le_compat_r; [lra|]. apply Rabs_le. assert (u * 0.2399 <= u * w) by (apply Rmult_le_compat_l; lra). lra. }
  apply Rabs_le_inv in PW. destruct (gmul p x G1 F) as [G2 H2]; [fold w; apply Rabs_le; lra|]. fold w in H2. assert (M2 : Rabs (B2R p * w) <= 0.457) by (apply Rabs_le; lra). pose proof (Rmult_le_compat_l u _ _ (Rlt_le _ _ U0) M2) as N2. set (q := Bmult mode_NE p x) in *. apply Rabs_le_inv in H2.
  assert (LWX : Rabs (B2R (lit 2.870%Q) * w - 2.87 * w) <= 2.9 * (u * w)). { replace (B2R (lit 2.870%Q) * w - 2.87 * w) with ((B2R (lit 2.870%Q) - 2.87) * w) by ring. rewrite Rabs_mult, (Rabs_pos_eq w) by lra. replace (2.9 * (u * w)) with (2.9 * u * w) by ring. apply Rmult_le_compat_r; [lra|]. apply Rabs_le. lra. }
  apply Rabs_le_inv in LWX. destruct (gmul (lit 2.870%Q) x F2 F) as [G3 H3]; [fold w; apply Rabs_le; lra|]. fold w in H3. assert (M3 : Rabs (B2R (lit 2.870%Q) * w) <= 1.121) by (apply Rabs_le; lra). pose proof (Rmult_le_compat_l u _ _ (Rlt_le _ _ U0) M3) as N3. set (r := Bmult mode_NE (lit 2.870%Q) x) in *. apply Rabs_le_inv in H3.
  assert (Q1 : -3 * (w * w) + 2.87 * w <= 0.664) by (clear - W; nra). assert (Q2 : 0.5 <= -3 * (w * w) + 2.87 * w) by (clear - W; nra).
  destruct (gplus q r G2 G3) as [G4 H4]; [apply Rabs_le; lra|]. assert (M4 : Rabs (B2R q + B2R r) <= 0.665) by (apply Rabs_le; lra). pose proof (Rmult_le_compat_l u _ _ (Rlt_le _ _ U0) M4) as N4. set (z := Bplus mode_NE q r) in *. apply Rabs_le_inv in H4.
  destruct (gminus z (lit 0.275%Q) G4 F0) as [G5 H5]; [apply Rabs_le; lra|]. assert (M5 : Rabs (B2R z - B2R (lit 0.275%Q)) <= 0.391) by (apply Rabs_le; lra). pose proof (Rmult_le_compat_l u _ _ (Rlt_le _ _ U0) M5) as N5. split; [exact G5|]. apply Rabs_le_inv in H5.
  assert (DX : Rabs ((-3 * (w * w) + 2.87 * w - 0.275) - cie_y X) <= 1.431 * (2 * u)). { unfold cie_y. replace (-3 * (w * w) + 2.87 * w - 0.275 - (-3 * X ^ 2 + 2.87 * X - 0.275)) with ((2.87 - 3 * (w + X)) * (w - X)) by lra. rewrite Rabs_mult. apply Rmult_le_compat; try apply Rabs_pos; [|exact E]. apply Rabs_le. lra. }
  apply Rabs_le_inv in DX. apply Rabs_le. lra.
Qed.

(* the range of the locus *)
Lemma cube T : 0 < T -> 10 ^ 3 / T = 1000 / T /\ 10 ^ 6 / T ^ 2 = (1000 / T) ^ 2 /\ 10 ^ 9 / T ^ 3 = (1000 / T) ^ 3.
Proof. intro H. repeat split; field; lra. Qed.
Lemma ratio T a b : 0 < a -> a <= T <= b -> 1000 / b <= 1000 / T <= 1000 / a.
Proof. intros A H. unfold Rdiv. split; apply Rmult_le_compat_l; try lra; apply Rinv_le; lra. Qed.
Lemma cie_x_range T : 4000 <= T <= 25000 -> 0.245 <= cie_x T <= 0.383.
Proof.
  intro H. destruct (cube T ltac:(lra)) as (C1 & C2 & C3). unfold cie_x. rewrite C1, C2, C3. destruct (Rle_dec T 7000) as [S|S].
  - destruct (ratio T 4000 7000 ltac:(lra) ltac:(lra)) as [A B]. set (r := 1000 / T) in *. assert (RR : 0.1428 <= r <= 0.25) by lra. clear - RR. assert (M : 0 <= (0.25 - r) * (-4.607 * (r * r + 0.25 * r + 0.0625) + 2.9678 * (r + 0.25) + 0.09911)) by (apply Rmult_le_pos; nra). split; [assert (0 <= r * r * (2.9678 - 4.607 * r)) by (apply Rmult_le_pos; nra); lra|lra].
  - destruct (ratio T 7000 25000 ltac:(lra) ltac:(lra)) as [A B]. set (r := 1000 / T) in *. assert (RR : 0.04 <= r <= 0.143) by lra. clear - RR. assert (0 <= r * r * (1.9018 - 2.0064 * r)) by (apply Rmult_le_pos; nra). assert (0 <= r * r <= 0.03) by nra. assert (0 <= r * (r * r)) by nra. lra.
Qed.

Lemma cct_ok (t : fl) : is_finite t = true -> 4000 <= B2R t <= 25000 ->
  exists x y o : fl, @cct _ ops t = Some (Xyy x y o) /\ is_finite x = true /\ is_finite y = true /\ is_finite o = true /\ B2R o = 1
    /\ Rabs (B2R x - cie_x (B2R t)) <= 2 * u /\ Rabs (B2R y - cie_y (cie_x (B2R t))) <= 8 * u.
Proof.
  intros F H. destruct (CurveProofs.u24 prec P5) as [U0 U]. destruct (CurveProofs.eta_le prec emax E5) as [T0 T]. pose proof vast_val as VV.
  pose proof (cie_x_range _ H) as XR. set (w := B2R t) in *.
  assert (W2 : 16000000 <= w * w <= 625000000) by (clear - H; nra). assert (W3 : 64000000000 <= w * w * w <= 15625000000000) by (clear - H W2; nra).
  destruct (gmul t t F F) as [F2 H2]; [fold w; apply Rabs_le; lra|]. fold w in H2. rewrite (Rabs_pos_eq (w * w)) in H2 by lra. set (t2 := Bmult mode_NE t t) in *.
  assert (R2 : rel (1.01 * u) (B2R t2) (w * w)) by (unfold rel; assert (u * 1 <= u * (w * w)) by (apply Rmult_le_compat_l; lra); lra).
  assert (B2 : Rabs (B2R t2 * w - w * w * w) <= 1.01 * u * (w * w * w)). { replace (B2R t2 * w - w * w * w) with ((B2R t2 - w * w) * w) by ring. rewrite Rabs_mult, (Rabs_pos_eq w) by lra. rewrite <- Rmult_assoc. apply Rmult_le_compat_r; [lra|exact R2]. }
  assert (UW : 0 <= u * (w * w * w) <= / 10000000 * (w * w * w)) by (split; [apply Rmult_le_pos; lra|apply Rmult_le_compat_r; lra]).
  apply Rabs_le_inv in B2. destruct (gmul t2 t F2 F) as [F3 H3]; [fold w; apply Rabs_le; lra|]. fold w in H3. rewrite (Rabs_pos_eq (B2R t2 * w)) in H3 by lra. set (t3 := Bmult mode_NE t2 t) in *.
  assert (R3 : rel (2.04 * u) (B2R t3) (w * w * w)). { unfold rel. assert (u * (B2R t2 * w) <= u * (1.001 * (w * w * w))) by (apply Rmult_le_compat_l; lra). assert (u * 1 <= u * (w * w * w)) by (apply Rmult_le_compat_l; lra). apply Rabs_le_inv in H3. apply Rabs_le. lra. }
  assert (R1 : rel (0 * u) (B2R t) w) by (unfold rel; fold w; replace (w - w) with 0 by ring; rewrite Rabs_R0; lra).
  destruct (cube w ltac:(lra)) as (C1 & C2 & C3).
  assert (TERM : forall (k a b c d : Q) (ra rb rc rd : R), Q2R a = ra * 1000000000 -> Q2R b = rb * 1000000 -> Q2R c = rc * 1000 -> Q2R d = rd -> 2 <= ra <= 5 -> 1.9 <= rb <= 3 -> 0.05 <= rc <= 0.25 -> 0.23 <= rd <= 0.245 ->
     0 <= ra * (1000 / w) ^ 3 <= 0.0725 -> 0.001 <= rb * (1000 / w) ^ 2 <= 0.186 -> 0.001 <= rc * (1000 / w) <= 0.0355 -> 0.0001 <= ra * (1000 / w) ^ 3 -> rb * (1000 / w) ^ 2 - ra * (1000 / w) ^ 3 <= 0.116 ->
     let s := Bplus mode_NE (Bplus mode_NE (Bplus mode_NE (Bdiv mode_NE (Bopp (lit a)) t3) (Bdiv mode_NE (lit b) t2)) (Bdiv mode_NE (lit c) t)) (lit d) in
     is_finite s = true /\ Rabs (B2R s - (- (ra * (1000 / w) ^ 3) + rb * (1000 / w) ^ 2 + rc * (1000 / w) + rd)) <= 2 * u).
  { intros _ a b c d ra rb rc rd Qa Qb Qc Qd Ra Rb Rc Rd Ta Tb Tc Ta' Tab s.
    destruct (wide a _ Qa ltac:(lra)) as [Fa La]. destruct (wide b _ Qb ltac:(lra)) as [Fb Lb]. destruct (wide c _ Qc ltac:(lra)) as [Fc Lc]. destruct (wide d _ Qd ltac:(lra)) as [Fd Ld].
    assert (Ea : ra * 1000000000 / (w * w * w) = ra * (1000 / w) ^ 3) by (field; lra). assert (Eb : rb * 1000000 / (w * w) = rb * (1000 / w) ^ 2) by (field; lra). assert (Ec : rc * 1000 / w = rc * (1000 / w)) by (field; lra).
    destruct (quot (lit a) t3 _ _ 1.01 2.04 Fa La R3 ltac:(lra) ltac:(lra) ltac:(lra) ltac:(lra) ltac:(rewrite Ea; lra)) as [GA QA]. destruct (quot (lit b) t2 _ _ 1.01 1.01 Fb Lb R2 ltac:(lra) ltac:(lra) ltac:(lra) ltac:(lra) ltac:(rewrite Eb; lra)) as [GB QB].
    destruct (quot (lit c) t _ _ 1.01 0 Fc Lc R1 ltac:(lra) ltac:(lra) ltac:(lra) ltac:(lra) ltac:(rewrite Ec; lra)) as [GC QC]. rewrite Ea in QA. rewrite Eb in QB. rewrite Ec in QC.
    assert (ND : B2R t3 <> 0) by (pose proof (rel_pos (2.04 * u) _ (w * w * w) ltac:(lra) ltac:(lra) R3); lra).
    destruct (neg_div (lit a) t3 Fa ND GA) as [GN QN]; [exact (quot_small _ _ _ _ 1.01 2.04 La R3 ltac:(lra) ltac:(lra) ltac:(lra) ltac:(lra) ltac:(rewrite Ea; lra))|].
    apply four; try assumption; try lra.
    - rewrite QN. replace (- B2R (Bdiv mode_NE (lit a) t3) + ra * (1000 / w) ^ 3) with (- (B2R (Bdiv mode_NE (lit a) t3) - ra * (1000 / w) ^ 3)) by ring. rewrite Rabs_Ropp. eapply Rle_trans; [exact QA|]. apply Rmult_le_compat_r; lra.
    - eapply Rle_trans; [exact QB|]. apply Rmult_le_compat_r; lra.
    - eapply Rle_trans; [exact QC|]. apply Rmult_le_compat_r; lra. }
  assert (XE : exists x, @cct _ ops t = Some (Xyy x (@cct_y _ ops x) (lit 1.0%Q)) /\ is_finite x = true /\ Rabs (B2R x - cie_x w) <= 2 * u).
  { unfold cct. cbn [rmul rdiv radd rneg rlt rle b_ops rlit]. fold t2. fold t3. destruct L4 as [F4 V4]. destruct L7 as [F7 V7]. destruct L25 as [F25 V25].
    rewrite (cmp_lt t _ F F4), (cmp_lt _ t F25 F), (cmp_le t _ F F7), V4, V7, V25. fold w. rewrite !Rlt_bool_false by lra. cbn [orb].
    unfold cie_x. rewrite C1, C2, C3. destruct (Rle_dec w 7000) as [S|S].
    - rewrite Rle_bool_true by exact S. destruct (ratio w 4000 7000 ltac:(lra) ltac:(lra)) as [A B]. set (r := 1000 / w) in *. assert (RR : 0.1428 <= r <= 0.25) by lra. assert (RQ : 0.0203 <= r ^ 2 <= 0.0625) by (clear - RR; nra). assert (RC : 0.0029 <= r ^ 3 <= 0.015625) by (clear - RR; nra). assert (BA : 2.9678 * r ^ 2 - 4.607 * r ^ 3 <= 0.116) by (clear - RR; assert (0 <= (0.25 - r) * (2.9678 * (r + 0.25) - 4.607 * (r * r + 0.25 * r + 0.0625))) by (apply Rmult_le_pos; nra); lra).
      eexists. split; [reflexivity|]. destruct (TERM 0%Q 4607000000.0%Q 2967800.0%Q 99.11%Q 0.244063%Q 4.607 2.9678 0.09911 0.244063) as [G E]; try (clear; q2r; lra); try (clear - RR RQ RC BA; lra). split; [exact G|].
      replace (-4.6070 * r ^ 3 + 2.9678 * r ^ 2 + 0.09911 * r + 0.244063) with (- (4.607 * r ^ 3) + 2.9678 * r ^ 2 + 0.09911 * r + 0.244063) by lra. exact E.
    - rewrite Rle_bool_false by lra. destruct (ratio w 7000 25000 ltac:(lra) ltac:(lra)) as [A B]. set (r := 1000 / w) in *. assert (RR : 0.04 <= r <= 0.1429) by lra. assert (RQ : 0.0016 <= r ^ 2 <= 0.0205) by (clear - RR; nra). assert (RC : 0.000064 <= r ^ 3 <= 0.00293) by (clear - RR; nra).
      eexists. split; [reflexivity|]. destruct (TERM 0%Q 2006400000.0%Q 1901800.0%Q 247.48%Q 0.237040%Q 2.0064 1.9018 0.24748 0.23704) as [G E]; try (clear; q2r; lra); try (clear - RR RQ RC; lra). split; [exact G|].
      replace (-2.0064 * r ^ 3 + 1.9018 * r ^ 2 + 0.24748 * r + 0.237040) with (- (2.0064 * r ^ 3) + 1.9018 * r ^ 2 + 0.24748 * r + 0.23704) by lra. exact E. }
  destruct XE as (x & E & G & B). destruct (curve_y x (cie_x w) G ltac:(lra) B) as [GY BY]. destruct L1 as [F1 V1]. exists x, (@cct_y _ ops x), (lit 1.0%Q). repeat split; assumption.
Qed.
End Fmt.

(* ---- how fast the locus moves with the temperature ---- *)
Lemma drop_lo r r' : 0.1428 <= r' -> r' <= r -> r <= 0.25 -> 0.385 * (r - r') <= (-4.6070 * r ^ 3 + 2.9678 * r ^ 2 + 0.09911 * r + 0.244063) - (-4.6070 * r' ^ 3 + 2.9678 * r' ^ 2 + 0.09911 * r' + 0.244063).
Proof.
  intros A B C. assert (M : 0 <= (r - r') * (-4.607 * (r * r + r * r' + r' * r') + 2.9678 * (r + r') + 0.09911 - 0.385)); [|lra]. apply Rmult_le_pos; [lra|].
  assert (0 <= (r - 0.1428) * (0.25 - r)) by (apply Rmult_le_pos; lra). assert (0 <= (r' - 0.1428) * (0.25 - r')) by (apply Rmult_le_pos; lra). assert (r * r' <= (r * r + r' * r') / 2) by (pose proof (Rle_0_sqr (r - r')); unfold Rsqr in *; lra). lra.
Qed.
Lemma drop_hi r r' : 0.04 <= r' -> r' <= r -> r <= 0.143 -> 0.385 * (r - r') <= (-2.0064 * r ^ 3 + 1.9018 * r ^ 2 + 0.24748 * r + 0.237040) - (-2.0064 * r' ^ 3 + 1.9018 * r' ^ 2 + 0.24748 * r' + 0.237040).
Proof.
  intros A B C. assert (M : 0 <= (r - r') * (-2.0064 * (r * r + r * r' + r' * r') + 1.9018 * (r + r') + 0.24748 - 0.385)); [|lra]. apply Rmult_le_pos; [lra|].
  assert (0 <= (r - 0.04) * (0.143 - r)) by (apply Rmult_le_pos; lra). assert (0 <= (r' - 0.04) * (0.143 - r')) by (apply Rmult_le_pos; lra). assert (r * r' <= (r * r + r' * r') / 2) by (pose proof (Rle_0_sqr (r - r')); unfold Rsqr in *; lra). lra.
Qed.
Lemma recip_gap a b : 4000 <= a -> a <= b -> b <= 25000 -> 0.0000016 * (b - a) <= 1000 / a - 1000 / b.
Proof.
  intros A H B. replace (1000 / a - 1000 / b) with (1000 * (b - a) * (/ a * / b)) by (field; lra). assert (/ 25000 <= / a) by (apply Rinv_le; lra). assert (/ 25000 <= / b) by (apply Rinv_le; lra).
  assert (P : / 25000 * / 25000 <= / a * / b) by (apply Rmult_le_compat; lra). pose proof (Rmult_le_compat_l (1000 * (b - a)) _ _ ltac:(lra) P). lra.
Qed.
Lemma cie_x_drop T T' : 4000 <= T -> T <= T' -> T' <= 25000 -> 0.0000006 * (T' - T) <= cie_x T - cie_x T'.
Proof.
  intros A H B. destruct (cube T ltac:(lra)) as (C1 & C2 & C3). destruct (cube T' ltac:(lra)) as (D1 & D2 & D3). unfold cie_x. rewrite C1, C2, C3, D1, D2, D3. destruct (Rle_dec T 7000) as [S|S], (Rle_dec T' 7000) as [S'|S'].
  - pose proof (recip_gap T T' A H B) as G. destruct (ratio T 4000 7000 ltac:(lra) ltac:(lra)) as [X1 X2]. destruct (ratio T' 4000 7000 ltac:(lra) ltac:(lra)) as [X3 X4]. pose proof (drop_lo (1000 / T) (1000 / T') ltac:(lra) ltac:(lra) ltac:(lra)). lra.
  - pose proof (recip_gap T 7000 A S ltac:(lra)) as G. pose proof (recip_gap 7000 T' ltac:(lra) ltac:(lra) B) as G'. destruct (ratio T 4000 7000 ltac:(lra) ltac:(lra)) as [X1 X2]. destruct (ratio T' 7000 25000 ltac:(lra) ltac:(lra)) as [X3 X4].
    pose proof (drop_lo (1000 / T) (1000 / 7000) ltac:(lra) ltac:(lra) ltac:(lra)). pose proof (drop_hi (1000 / 7000) (1000 / T') ltac:(lra) ltac:(lra) ltac:(lra)). lra.
  - lra.
  - pose proof (recip_gap T T' A H B) as G. destruct (ratio T 7000 25000 ltac:(lra) ltac:(lra)) as [X1 X2]. destruct (ratio T' 7000 25000 ltac:(lra) ltac:(lra)) as [X3 X4]. pose proof (drop_hi (1000 / T) (1000 / T') ltac:(lra) ltac:(lra) ltac:(lra)). lra.
Qed.
Lemma cie_y_drop T T' : 4000 <= T -> T <= T' -> T' <= 25000 -> 0.00000034 * (T' - T) <= cie_y (cie_x T) - cie_y (cie_x T').
Proof.
  intros A H B. pose proof (cie_x_drop T T' A H B) as D. pose proof (cie_x_range T ltac:(lra)) as R1. pose proof (cie_x_range T' ltac:(lra)) as R2. set (x := cie_x T) in *. set (x' := cie_x T') in *. unfold cie_y.
  assert (M : 0.57 * (x - x') <= (2.87 - 3 * (x + x')) * (x - x')) by (apply Rmult_le_compat_r; lra). lra.
Qed.
Lemma cie_y_range T : 4000 <= T <= 25000 -> 0.24 <= cie_y (cie_x T) <= 0.39.
Proof. intro H. pose proof (cie_x_range T H) as R. unfold cie_y. set (x := cie_x T) in *. assert (0 <= (x - 0.245) * (0.383 - x)) by (apply Rmult_le_pos; lra). split; [lra|]. pose proof (Rle_0_sqr (x - 0.383)) as S. unfold Rsqr in S. lra. Qed.

(* ---- the two formats ---- *)
Lemma lit32_wide : lit_wide 24 128 (fun q => f64_to_f32 (b_of_Q 53 1024 q)).
Proof.
  intros q H. destruct (litd_wide 53 1024 ltac:(lia) ltac:(lia) q H) as [F R]. set (x := b_of_Q 53 1024 q) in *.
  destruct (conv_ev 53 1024 24 128 x ltac:(lia) (not_nan 53 1024 x F)) as [N2 V]. rewrite (ev_fin 53 1024 x F) in V.
  change (bpow radix2 (- (53))) with (/ 9007199254740992) in R. pose proof (rel_bounds _ _ _ R) as B. assert (X : 0.0009 <= B2R x <= 20000000000) by lra. pose proof vast_val as VV.
  pose proof (tiny_le 128 ltac:(lia)) as [T0 T]. pose proof (vast_rnd 24 128 ltac:(lia) ltac:(lia) (B2R x) ltac:(apply Rabs_le; lra)) as S. pose proof (rnd_rel 24 128 (B2R x) ltac:(lra)) as R2.
  rewrite sat_in in V by exact S. unfold f64_to_f32. set (y := b_conv 53 1024 24 128 x) in *.
  assert (FY : is_finite y = true). { destruct y as [s|s| |s m e H0]; try reflexivity; [|discriminate]. exfalso. unfold ev in V. rewrite <- V in S. destruct s; [rewrite Rabs_Ropp in S|]; rewrite Rabs_pos_eq in S by apply bpow_ge_0; lra. }
  split; [exact FY|]. rewrite (ev_fin 24 128 y FY) in V. rewrite V.
  pose proof (rel_trans _ _ _ _ _ R2 R ltac:(pose proof (CurveProofs.u24 24 ltac:(lia)); lra) ltac:(lra) ltac:(lra)) as R3. eapply rel_weaken; [exact R3| |lra].
  change (bpow radix2 (- (24))) with (/ 16777216). lra.
Qed.
Lemma exact_sf (prec emax : Z) (x : binary_float prec emax) m e r : B2SF x = SpecFloat.S754_finite false m e -> IZR (Zpos m) * bpow radix2 e = r -> is_finite x = true /\ B2R x = r.
Proof. intros H <-. rewrite <- is_finite_SF_B2SF, <- SF2R_B2SF, H. split; reflexivity. Qed.
Ltac by_sf := eapply exact_sf; [vm_compute; reflexivity|rewrite <- ?opp_IZR; cbn -[IZR]; lra].

(* t in floating point against the CIE daylight locus; dx and dy are temperature steps that x and y resolve *)
Definition daylight (prec emax : Z) (ops : RealOps (binary_float prec emax)) (u dx dy : R) : Prop :=
  (forall t : binary_float prec emax, is_finite t = true -> 4000 <= B2R t <= 25000 -> exists x y o, @cct _ ops t = Some (Xyy x y o) /\ is_finite x = true /\ is_finite y = true /\ is_finite o = true
     /\ Rabs (B2R x - cie_x (B2R t)) <= 2 * u /\ Rabs (B2R y - cie_y (cie_x (B2R t))) <= 8 * u /\ B2R o = 1 /\ 0.24 < B2R x < 0.39 /\ 0.23 < B2R y < 0.4)
  /\ (forall t : binary_float prec emax, is_finite t = true -> B2R t < 4000 \/ 25000 < B2R t -> @cct _ ops t = None)
  /\ (forall (t t' : binary_float prec emax) x y o x' y' o', is_finite t = true -> is_finite t' = true -> @cct _ ops t = Some (Xyy x y o) -> @cct _ ops t' = Some (Xyy x' y' o') ->
       (B2R t + dx <= B2R t' -> B2R x' < B2R x) /\ (B2R t + dy <= B2R t' -> B2R y' < B2R y)).

Section Gen.
Context (prec emax : Z) {Hp : Prec_gt_0 prec} {He : Prec_lt_emax prec emax} (P5 : (24 <= prec)%Z) (E5 : (128 <= emax)%Z).
Notation u := (bpow radix2 (- prec)).
Context (L : libm (binary_float prec emax)) (lit : Q -> binary_float prec emax) (LW : lit_wide prec emax lit).
Context (L1 : lit_exact prec emax lit 1.0%Q 1) (L3 : lit_exact prec emax lit 3.0%Q 3) (L4 : lit_exact prec emax lit 4000.0%Q 4000) (L7 : lit_exact prec emax lit 7000.0%Q 7000) (L25 : lit_exact prec emax lit 25000.0%Q 25000).
Lemma out_of_range t : is_finite t = true -> B2R t < 4000 \/ 25000 < B2R t -> @cct _ (b_ops prec emax L lit) t = None.
Proof.
  intros F H. unfold cct. cbn [rlt b_ops rlit]. destruct L4 as [F4 V4]. destruct L25 as [F25 V25]. rewrite (cmp_lt prec emax t _ F F4), (cmp_lt prec emax _ t F25 F), V4, V25.
  destruct H as [H|H]; [rewrite (Rlt_bool_true _ _ H)|rewrite (Rlt_bool_true _ _ H), orb_true_r]; reflexivity.
Qed.
Lemma daylight_ok dx dy : 0 <= dx -> 0 <= dy -> 4 * u < 0.0000006 * dx -> 16 * u < 0.00000034 * dy -> daylight prec emax (b_ops prec emax L lit) u dx dy.
Proof.
  intros D0 D1 DX DY. destruct (CurveProofs.u24 prec P5) as [U0 U]. split; [|split].
  - intros t F H. destruct (cct_ok prec emax P5 E5 L lit LW L1 L3 L4 L7 L25 t F H) as (x & y & o & E & Fx & Fy & Fo & Vo & Bx & By). exists x, y, o. pose proof (cie_x_range _ H) as RX. pose proof (cie_y_range _ H) as RY.
    pose proof (Rabs_le_inv _ _ Bx). pose proof (Rabs_le_inv _ _ By). repeat (split; [first [assumption|lra]|]). lra.
  - exact out_of_range.
  - intros t t' x y o x' y' o' F F' E E'.
    assert (I : forall (v : binary_float prec emax) a b c, is_finite v = true -> @cct _ (b_ops prec emax L lit) v = Some (Xyy a b c) -> 4000 <= B2R v <= 25000 /\ Rabs (B2R a - cie_x (B2R v)) <= 2 * u /\ Rabs (B2R b - cie_y (cie_x (B2R v))) <= 8 * u).
    { intros v a b c Fv Ev. assert (R : 4000 <= B2R v <= 25000). { destruct (Rlt_dec (B2R v) 4000) as [H|H]; [rewrite out_of_range in Ev by (try assumption; left; exact H); discriminate|]. destruct (Rlt_dec 25000 (B2R v)) as [H'|H']; [rewrite out_of_range in Ev by (try assumption; right; exact H'); discriminate|]. lra. }
      destruct (cct_ok prec emax P5 E5 L lit LW L1 L3 L4 L7 L25 v Fv R) as (x0 & y0 & o0 & E0 & _ & _ & _ & _ & Bx & By). rewrite E0 in Ev. injection Ev as <- <- <-. split; [exact R|split; assumption]. }
    destruct (I t x y o F E) as (R & Bx & By). destruct (I t' x' y' o' F' E') as (R' & Bx' & By'). apply Rabs_le_inv in Bx, By, Bx', By'. split; intro H.
    + pose proof (cie_x_drop (B2R t) (B2R t') ltac:(lra) ltac:(lra) ltac:(lra)). lra.
    + pose proof (cie_y_drop (B2R t) (B2R t') ltac:(lra) ltac:(lra) ltac:(lra)). lra.
Qed.
End Gen.

Theorem C109_daylight_f32 : forall L : libm f32, daylight 24 128 (f32_ops L) (bpow radix2 (-24)) 0.5 3.
Proof.
  intro L. apply daylight_ok; try lia; try lra; try exact lit32_wide; try (by_sf); change (bpow radix2 (- (24))) with (/ 16777216); lra.
Qed.
Print Assumptions C109_daylight_f32.
Theorem C109_daylight_f64 : forall L : libm f64, daylight 53 1024 (f64_ops L) (bpow radix2 (-53)) 0.000000001 0.00000001.
Proof.
  intro L. apply daylight_ok; try lia; try lra; try (apply litd_wide; lia); try (by_sf); change (bpow radix2 (- (53))) with (/ 9007199254740992); lra.
Qed.
Print Assumptions C109_daylight_f64.

(* 6504 K in single precision: close to the D65 white point (0.3127, 0.3290) of the primaries *)
Example C109_example : forall L : libm f32, exists x y o, @cct _ (f32_ops L) (b_of_Q 24 128 6504.0%Q) = Some (Xyy x y o) /\ Rabs (B2R x - 0.3127) <= 0.0001 /\ Rabs (B2R y - 0.3290) <= 0.0003.
Proof.
  intro L. destruct (C109_daylight_f32 L) as [H _]. assert (B : is_finite (b_of_Q 24 128 6504.0%Q) = true /\ B2R (b_of_Q 24 128 6504.0%Q) = 6504) by by_sf. destruct B as [F V].
  destruct (H _ F ltac:(lra)) as (x & y & o & E & _ & _ & _ & Bx & By & _). exists x, y, o. split; [exact E|]. rewrite V in Bx, By. change (bpow radix2 (-24)) with (/ 16777216) in Bx, By.
  assert (X : 0.31271 <= cie_x 6504 <= 0.31275) by (unfold cie_x; destruct (Rle_dec 6504 7000); lra). set (c := cie_x 6504) in *. unfold cie_y in By. apply Rabs_le_inv in Bx, By. split; apply Rabs_le; [lra|]. assert (0 <= (c - 0.31271) * (0.31275 - c)) by (apply Rmult_le_pos; lra). nra.
Qed.
Print Assumptions C109_example.
