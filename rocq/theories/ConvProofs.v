(* Floating-point image conversion against exact arithmetic: the pieces *)
From Coq Require Import Reals ZArith QArith Qreals Lra Lia Bool List.
From Flocq Require Import Core BinarySingleNaN.
From Verif Require Import Outcome RealOps MathModel ColorModel SpaceModel TransformModel XReal SpecLin FloatInst FloatProofs ErrProofs TransferProofs PropPixel RelErr CurveProofs PropCurve PropSelf ConvMat.
Import ListNotations.
Open Scope R_scope.

(* ---- quantization in exact arithmetic ---- *)
Definition clampR (z : R) : R := Rmax 0 (Rmin 1 z).
Lemma clampR_01 z : 0 <= clampR z <= 1.
Proof. unfold clampR. split; [apply Rmax_l|]. apply Rmax_lub; [lra|apply Rmin_l]. Qed.
Lemma clampR_low z : z <= 0 -> clampR z = 0.
Proof. intro H. unfold clampR. rewrite Rmin_right, Rmax_left by lra. reflexivity. Qed.
Lemma clampR_high z : 1 <= z -> clampR z = 1.
Proof. intro H. unfold clampR. rewrite Rmin_left, Rmax_right by lra. reflexivity. Qed.
Lemma clampR_mid z : 0 <= z <= 1 -> clampR z = z.
Proof. intro H. unfold clampR. rewrite Rmin_right, Rmax_right by lra. reflexivity. Qed.
Lemma clampR_near x z E : Rabs (x - z) <= E -> Rabs (clampR x - clampR z) <= E.
Proof.
  intro H. apply Rabs_le_inv in H. pose proof (Rabs_pos (x - z)) as P.
  destruct (Rle_dec x 0) as [X|X]; [rewrite (clampR_low x) by lra|destruct (Rle_dec 1 x) as [X'|X']; [rewrite (clampR_high x) by lra|rewrite (clampR_mid x) by lra]];
  (destruct (Rle_dec z 0) as [Z|Z]; [rewrite (clampR_low z) by lra|destruct (Rle_dec 1 z) as [Z'|Z']; [rewrite (clampR_high z) by lra|rewrite (clampR_mid z) by lra]]); apply Rabs_le; lra.
Qed.
Lemma q2r_int N : Q2R (inject_Z N) = IZR N.
Proof. unfold Q2R, inject_Z. cbn [Qnum Qden]. lra. Qed.
Lemma xquant {K : XConst} N z : (1 <= N)%Z -> Rabs (IZR (quantize N (Fin z)) - clampR z * IZR N) <= / 2.
Proof.
  intro HN. assert (N1 : 1 <= IZR N) by (apply IZR_le; lia). pose proof (clampR_01 z) as C.
  assert (E : clamp (Fin z) (rlitd 0.0) (rlitd 1.0) = Fin (clampR z)).
  { unfold clamp. cbn [rlt rlitd xr_ops xcmp]. replace (Q2R 0.0) with 0 by (clear; q2r; lra). replace (Q2R 1.0) with 1 by (clear; q2r; lra).
    destruct (Rlt_dec z 0) as [A|A]; [rewrite Rltb_true, clampR_low by lra; reflexivity|]. rewrite Rltb_false by lra. destruct (Rlt_dec 1 z) as [B|B]; [rewrite Rltb_true, clampR_high by lra; reflexivity|]. rewrite Rltb_false, clampR_mid by lra. reflexivity. }
  unfold quantize. rewrite E. cbn [ras_uint rround rmul rlitd xr_ops xlift1 xlift2 xas_uint]. rewrite q2r_int. unfold xround. rewrite Ztrunc_IZR. set (t := clampR z * IZR N).
  assert (T : 0 <= t <= IZR N). { unfold t. split; [apply Rmult_le_pos; lra|]. rewrite <- (Rmult_1_l (IZR N)) at 2. apply Rmult_le_compat_r; lra. }
  assert (B : (0 <= ZnearestA t <= N)%Z).
  { pose proof (@Zrnd_le ZnearestA _ _ _ (proj1 T)) as T1. pose proof (@Zrnd_le ZnearestA _ _ _ (proj2 T)) as T2. rewrite (@Zrnd_IZR ZnearestA _ 0) in T1. rewrite (@Zrnd_IZR ZnearestA _ N) in T2. split; assumption. }
  rewrite Z.max_l, Z.min_l by lia. rewrite <- Rabs_Ropp. replace (- (IZR (ZnearestA t) - t)) with (t - IZR (ZnearestA t)) by ring. apply (Znearest_half (Z.leb 0)).
Qed.
Lemma xquant_bad {K : XConst} N : quantize N Bad = 0%Z.
Proof. reflexivity. Qed.

Section Fmt.
Context (prec emax : Z) {Hp : Prec_gt_0 prec} {He : Prec_lt_emax prec emax}.
Notation fl := (binary_float prec emax).
Notation u := (bpow radix2 (- prec)).
Notation eta := (bpow radix2 (2 - emax - prec)).
Notation tiny := (bpow radix2 (2 - emax)).
Notation rnd := (round radix2 (SpecFloat.fexp prec emax) ZnearestE).
Context (P5 : (24 <= prec)%Z) (E5 : (128 <= emax)%Z).
Context (L : libm fl) (lit : Q -> fl).
Notation ops := (b_ops prec emax L lit).

Lemma fquant N x : (1 <= N <= 65535)%Z -> is_finite x = true -> Rabs (IZR (@quantize _ ops N x) - clampR (B2R x) * IZR N) <= / 2 + IZR N * u.
Proof.
  intros HN F. assert (PP : (65535 <= 2 ^ prec)%Z). { apply Z.le_trans with (2 ^ 24)%Z; [lia|]. apply Z.pow_le_mono_r; lia. }
  assert (Nx : is_nan x = false) by (destruct x; try discriminate; reflexivity). destruct (CurveProofs.u24 prec P5) as [U0 U]. assert (N1 : 1 <= IZR N) by (apply IZR_le; lia). assert (0 <= IZR N * u) by (apply Rmult_le_pos; lra).
  destruct (Rle_dec (B2R x) 0) as [X|X].
  { rewrite (quantize_low prec emax) by (try assumption; try lia; rewrite (ev_fin prec emax) by exact F; lra). rewrite clampR_low by lra. rewrite Rmult_0_l, Rminus_0_r, Rabs_R0. lra. }
  destruct (Rle_dec 1 (B2R x)) as [X'|X'].
  { rewrite (quantize_high prec emax) by (try assumption; try lia; rewrite (ev_fin prec emax) by exact F; lra). rewrite clampR_high by lra. replace (IZR N - 1 * IZR N) with 0 by ring. rewrite Rabs_R0. lra. }
  rewrite clampR_mid by lra. pose proof (quantize_near prec emax L lit N x ltac:(lia) F ltac:(lra)) as Q. lra.
Qed.
Lemma int_gap a b w : Rabs (IZR a - IZR b) < 1 + IZR w -> (Z.abs (a - b) <= w)%Z.
Proof. intro H. rewrite <- minus_IZR, <- abs_IZR in H. apply Z.lt_succ_r. apply lt_IZR. rewrite succ_IZR. lra. Qed.
Lemma two_codes {K : XConst} N x z E w : (1 <= N <= 65535)%Z -> is_finite x = true -> Rabs (B2R x - z) <= E -> IZR N * (E + u) < IZR w ->
  (Z.abs (@quantize _ ops N x - quantize N (Fin z)) <= w)%Z.
Proof.
  intros HN F H B. assert (N1 : 1 <= IZR N) by (apply IZR_le; lia). pose proof (fquant N x HN F) as A. pose proof (xquant N z ltac:(lia)) as C. pose proof (clampR_near _ _ _ H) as D.
  apply int_gap. set (p := IZR (@quantize _ ops N x)) in *. set (q := IZR (quantize N (Fin z))) in *.
  assert (G : Rabs (clampR (B2R x) * IZR N - clampR z * IZR N) <= E * IZR N). { replace (clampR (B2R x) * IZR N - clampR z * IZR N) with ((clampR (B2R x) - clampR z) * IZR N) by ring. rewrite Rabs_mult, (Rabs_pos_eq (IZR N)) by lra. apply Rmult_le_compat_r; lra. }
  apply Rabs_le_inv in A, C, G. apply Rabs_def1; lra.
Qed.
Lemma both_high {K : XConst} N x z : (1 <= N <= 65535)%Z -> is_finite x = true -> 1 <= B2R x -> 1 <= z -> @quantize _ ops N x = quantize N (Fin z).
Proof.
  intros HN F X Z. assert (PP : (65535 <= 2 ^ prec)%Z). { apply Z.le_trans with (2 ^ 24)%Z; [lia|]. apply Z.pow_le_mono_r; lia. } assert (Nx : is_nan x = false) by (destruct x; try discriminate; reflexivity).
  rewrite (quantize_high prec emax) by (try assumption; try lia; rewrite (ev_fin prec emax) by exact F; lra).
  pose proof (xquant N z ltac:(lia)) as C. rewrite clampR_high in C by lra. assert (Z.abs (quantize N (Fin z) - N) <= 0)%Z; [|lia]. apply int_gap. rewrite Rmult_1_l in C. lra.
Qed.
Lemma both_low {K : XConst} N x z : (1 <= N <= 65535)%Z -> is_finite x = true -> B2R x <= 0 -> z <= 0 -> @quantize _ ops N x = quantize N (Fin z).
Proof.
  intros HN F X Z. assert (PP : (65535 <= 2 ^ prec)%Z). { apply Z.le_trans with (2 ^ 24)%Z; [lia|]. apply Z.pow_le_mono_r; lia. } assert (Nx : is_nan x = false) by (destruct x; try discriminate; reflexivity).
  rewrite (quantize_low prec emax) by (try assumption; try lia; rewrite (ev_fin prec emax) by exact F; lra).
  pose proof (xquant N z ltac:(lia)) as C. rewrite clampR_low in C by lra. assert (Z.abs (quantize N (Fin z) - 0) <= 0)%Z; [|lia]. apply int_gap. rewrite Rmult_0_l in C. change (IZR 0) with 0. lra.
Qed.

(* what is needed of an encoder: on values at most D apart the two codes differ by at most w *)
Definition tgt_ok {K : XConst} (N w : Z) (D : R) (encf : fl -> fl) (encx : xr -> xr) : Prop := forall v y, is_finite v = true -> Rabs y <= 5 -> Rabs (B2R v - y) <= D ->
  (Z.abs (@quantize _ ops N (encf v) - quantize N (encx (Fin y))) <= w)%Z.
Lemma tgt_linear {K : XConst} N w D : (1 <= N <= 65535)%Z -> IZR N * (D + u) < IZR w -> tgt_ok N w D (fun x => x) (fun x => x).
Proof. intros HN B v y F _ H. apply (two_codes N v y D); assumption. Qed.

Notation pw := (l_powf L).
Context (LO : lit_ok prec emax lit) (PW : powf_ok prec emax pw) (PZ : powf_zero prec emax pw) (PN : powf_neg prec emax pw) (PV : powf_wide prec emax pw).
Context (E6 : IZR (emax + prec) * u <= / 10000) (E7 : (2 * prec <= emax)%Z).

(* ---- pure powers ---- *)
Lemma pow_sub x y p : 0 <= x -> 0 <= y -> 0 < p <= 1 -> 0 < x + y -> Rpower (x + y) p <= (if Rlt_dec 0 x then Rpower x p else 0) + (if Rlt_dec 0 y then Rpower y p else 0).
Proof.
  intros X Y P S. destruct (Rlt_dec 0 x) as [X1|X1]; destruct (Rlt_dec 0 y) as [Y1|Y1].
  2: { replace y with 0 by lra. rewrite Rplus_0_r. lra. } 2: { replace x with 0 by lra. rewrite Rplus_0_l. lra. } 2: lra.
  assert (SX : x / (x + y) * (x + y) = x) by (field; lra). assert (SY : y / (x + y) * (x + y) = y) by (field; lra). set (a := x / (x + y)) in *. set (b := y / (x + y)) in *.
  assert (AB : a + b = 1) by (unfold a, b; field; lra). assert (A : 0 < a) by (apply Rmult_lt_0_compat; [lra|apply Rinv_0_lt_compat; lra]). assert (B : 0 < b) by (apply Rmult_lt_0_compat; [lra|apply Rinv_0_lt_compat; lra]).
  rewrite <- SX at 2. rewrite <- SY at 3. rewrite <- !Rpower_mult_distr by lra. pose proof (pow_below a p ltac:(lra) ltac:(lra)). pose proof (pow_below b p ltac:(lra) ltac:(lra)).
  assert (W : 0 < Rpower (x + y) p) by apply exp_pos. set (w := Rpower (x + y) p) in *. assert (a * w <= Rpower a p * w) by (apply Rmult_le_compat_r; lra). assert (b * w <= Rpower b p * w) by (apply Rmult_le_compat_r; lra). replace w with ((a + b) * w) at 1 by (rewrite AB; ring). lra.
Qed.
Lemma pow_near v y p D : 0 < v -> 0 < y -> 0 < p <= 1 -> 0 < D -> Rabs (v - y) <= D -> Rabs (Rpower v p - Rpower y p) <= Rpower D p.
Proof.
  intros V Y P D0 H. apply Rabs_le_inv in H. assert (DP : 0 < Rpower D p) by apply exp_pos.
  assert (W : forall b c, 0 < b -> b < c -> c - b <= D -> 0 <= Rpower c p - Rpower b p <= Rpower D p).
  { intros b c B C CB. pose proof (pow_sub b (c - b) p ltac:(lra) ltac:(lra) P ltac:(lra)) as S. replace (b + (c - b)) with c in S by ring. destruct (Rlt_dec 0 b) as [_|]; [|lra]. destruct (Rlt_dec 0 (c - b)) as [_|]; [|lra].
    assert (Rpower b p <= Rpower c p) by (apply Rle_Rpower_l; lra). assert (Rpower (c - b) p <= Rpower D p) by (apply Rle_Rpower_l; lra). lra. }
  destruct (Rtotal_order v y) as [O|[O|O]].
  - pose proof (W v y V O ltac:(lra)). apply Rabs_le. lra.
  - subst. replace (Rpower y p - Rpower y p) with 0 by ring. rewrite Rabs_R0. lra.
  - pose proof (W y v Y O ltac:(lra)). apply Rabs_le. lra.
Qed.

(* ---- encoders ---- *)
Definition rootx (p : R) (z : xr) : xr := xpowf z (Fin p).
Lemma frac_floor p : 0 < p < 1 -> p <> IZR (Zfloor p).
Proof. intros P E. rewrite (Zfloor_imp 0) in E; [lra|]. change (0 + 1)%Z with 1%Z. lra. Qed.
Lemma rootx_neg p y : 0 < p < 1 -> y < 0 -> rootx p (Fin y) = Bad.
Proof. intros P Y. unfold rootx, xpowf. destruct (Rlt_dec 0 y); [lra|]. destruct (Req_EM_T y 0); [lra|]. destruct (Req_EM_T p _) as [E|]; [|reflexivity]. exfalso. exact (frac_floor p P E). Qed.
Lemma rootx_zero p : 0 < p -> rootx p (Fin 0) = Fin 0.
Proof. intro P. unfold rootx, xpowf. destruct (Rlt_dec 0 0); [lra|]. destruct (Req_EM_T 0 0); [|lra]. destruct (Rlt_dec 0 p); [reflexivity|lra]. Qed.
Lemma rootx_pos p y : 0 < y -> rootx p (Fin y) = Fin (Rpower y p).
Proof. intro Y. unfold rootx, xpowf. destruct (Rlt_dec 0 y); [reflexivity|lra]. Qed.
Lemma nonpos_x {K : XConst} N p y : (1 <= N)%Z -> 0 < p < 1 -> y <= 0 -> quantize N (rootx p (Fin y)) = 0%Z.
Proof.
  intros HN P Y. destruct (Rlt_dec y 0) as [Y0|Y0]; [rewrite (rootx_neg p y P Y0); reflexivity|]. replace y with 0 by lra. rewrite rootx_zero by lra. pose proof (xquant N 0 HN) as C. rewrite clampR_low, Rmult_0_l in C by lra.
  assert (Z.abs (quantize N (Fin 0) - 0) <= 0)%Z; [|lia]. apply int_gap. change (IZR 0) with 0 in *. lra.
Qed.
Lemma nonpos_f N fp v : (1 <= N <= 65535)%Z -> is_finite v = true -> is_finite fp = true -> 0 < B2R fp < 1 -> B2R v <= 0 -> @quantize _ ops N (pw v fp) = 0%Z.
Proof.
  intros HN F Fp P V. destruct (Rlt_dec (B2R v) 0) as [V0|V0].
  - pose proof (PN v fp F Fp V0 P) as NN. apply (is_nan_eq prec emax) in NN. rewrite NN. apply (quantize_nan prec emax).
  - destruct (PZ v fp F Fp ltac:(lra) ltac:(lra)) as [F0 Z0]. assert (PP : (65535 <= 2 ^ prec)%Z). { apply Z.le_trans with (2 ^ 24)%Z; [lia|]. apply Z.pow_le_mono_r; lia. }
    apply (quantize_low prec emax); try lia. { destruct (pw v fp); try discriminate; reflexivity. } rewrite (ev_fin prec emax) by exact F0. lra.
Qed.
Lemma tgt_power {K : XConst} N w D (g : R) fp : (1 <= N <= 65535)%Z -> 2 <= g <= 2.7 -> is_finite fp = true -> rel (3 * u) (B2R fp) (/ g) -> 0 < D <= 0.001 ->
  IZR N * (Rpower D (/ g) + 1.1 * slack prec emax + u) < IZR w -> tgt_ok N w D (fun v => pw v fp) (rootx (/ g)).
Proof.
  intros HN G Fp Rp HD B v y F HY H. destruct (CurveProofs.u24 prec P5) as [U0 U]. apply Rabs_le_inv in HY. pose proof H as H'. apply Rabs_le_inv in H'. assert (N1 : 1 <= IZR N) by (apply IZR_le; lia).
  assert (PR : 0.37 <= / g <= 0.5). { split; [apply Rle_trans with (/ 2.7); [lra|]|replace 0.5 with (/ 2) by lra]; apply Rinv_le; lra. } pose proof (rel_bounds _ _ _ Rp) as Bp. assert (P2 : 0.36 <= B2R fp <= 0.51) by (clear - Bp PR U0 U; nra).
  assert (SL : 0 <= slack prec emax). { unfold slack. assert (0 <= IZR (emax + prec) * u) by (apply Rmult_le_pos; [apply IZR_le; lia|lra]). lra. }
  set (sl := slack prec emax) in *. assert (DP : 0 < Rpower D (/ g)) by apply exp_pos. set (dp := Rpower D (/ g)) in *.
  assert (W : forall x z, is_finite x = true -> Rabs (B2R x - z) <= dp + 1.1 * sl -> (Z.abs (@quantize _ ops N x - quantize N (Fin z)) <= w)%Z) by (intros x z Fx E; exact (two_codes N x z _ w HN Fx E B)).
  destruct (Rle_dec (B2R v) 0) as [V|V].
  - rewrite (nonpos_f N fp v HN F Fp ltac:(lra) V). destruct (Rle_dec y 0) as [Y|Y].
    + rewrite (nonpos_x N (/ g) y ltac:(lia) ltac:(lra) Y). apply int_gap. rewrite Rminus_eq_0, Rabs_R0. assert (0 <= IZR N * (dp + 1.1 * sl + u)) by (apply Rmult_le_pos; lra). lra.
    + rewrite rootx_pos by lra. pose proof (xquant N (Rpower y (/ g)) ltac:(lia)) as C. assert (YD : Rpower y (/ g) <= dp) by (apply Rle_Rpower_l; lra). assert (Y0 : 0 < Rpower y (/ g)) by apply exp_pos.
      assert (CL : 0 <= clampR (Rpower y (/ g)) <= dp). { split; [apply clampR_01|]. unfold clampR. apply Rmax_lub; [lra|]. eapply Rle_trans; [apply Rmin_r|exact YD]. }
      apply int_gap. assert (0 <= clampR (Rpower y (/ g)) * IZR N <= dp * IZR N) by (split; [apply Rmult_le_pos|apply Rmult_le_compat_r]; lra). assert (IZR N * dp <= IZR N * (dp + 1.1 * sl + u)) by (apply Rmult_le_compat_l; lra). apply Rabs_le_inv in C. change (IZR 0) with 0. apply Rabs_def1; lra.
  - destruct (Rlt_dec 1.1 (B2R v)) as [V2|V2].
    { destruct (wide_up prec emax P5 pw PV v fp F Fp ltac:(lra) ltac:(lra)) as [F1 W1]. rewrite rootx_pos by lra. rewrite (both_high N (pw v fp) (Rpower y (/ g)) HN F1 ltac:(lra)); [|pose proof (grows y (/ g) ltac:(lra) ltac:(lra)); lra].
      apply int_gap. rewrite Rminus_eq_0, Rabs_R0. assert (0 <= IZR N * (dp + 1.1 * sl + u)) by (apply Rmult_le_pos; lra). lra. }
    destruct (root_ok prec emax P5 E5 pw PW g G fp Fp Rp E6 E7 v F ltac:(lra)) as [F1 R1]. fold sl in R1. unfold rel in R1.
    assert (VP : 0 < Rpower (B2R v) (/ g) <= 1.1). { split; [apply exp_pos|]. apply Rle_trans with (Rpower 1.1 (/ g)); [apply Rle_Rpower_l; lra|apply pow_above; lra]. }
    set (vp := Rpower (B2R v) (/ g)) in *. assert (SV : sl * vp <= sl * 1.1) by (apply Rmult_le_compat_l; lra).
    destruct (Rle_dec y 0) as [Y|Y].
    + rewrite (nonpos_x N (/ g) y ltac:(lia) ltac:(lra) Y). rewrite <- (nonpos_x N (/ g) 0 ltac:(lia) ltac:(lra) ltac:(lra)). rewrite rootx_zero by lra. apply W; [exact F1|]. assert (VD : vp <= dp) by (apply Rle_Rpower_l; lra). apply Rabs_le_inv in R1. apply Rabs_le. assert (sl * vp <= 1.1 * sl) by lra. assert (0 <= sl * vp) by (apply Rmult_le_pos; lra). lra.
    + rewrite rootx_pos by lra. apply W; [exact F1|]. pose proof (pow_near (B2R v) y (/ g) D ltac:(lra) ltac:(lra) ltac:(lra) ltac:(lra) H) as Q. fold vp dp in Q. apply Rabs_le_inv in R1, Q. apply Rabs_le. lra.
Qed.
Lemma tgt_curve {K : XConst} N w D decf encf decR encR encx kn j : near_exact prec emax decf encf decR encR kn j -> (forall y, encx (Fin y) = Fin (encR y)) -> (1 <= N <= 65535)%Z -> D <= 0.001 -> 0 <= j -> 0 <= D ->
  IZR N * (13 * D + j + 33 * u + u) < IZR w -> tgt_ok N w D encf encx.
Proof.
  intros [_ NE] EX HN HD J0 D0 B v y F HY H. rewrite EX. destruct (CurveProofs.u24 prec P5) as [U0 U]. assert (N1 : 1 <= IZR N) by (apply IZR_le; lia).
  assert (W0 : 0 < 1 + IZR w). { assert (0 <= IZR N * (13 * D + j + 33 * u + u)) by (apply Rmult_le_pos; lra). lra. }
  destruct (NE v y D F HY HD H) as [G [E|[[E1 E2]|[E1 E2]]]].
  - exact (two_codes N (encf v) (encR y) _ w HN G E B).
  - rewrite (both_low N _ _ HN G E1 E2). apply int_gap. rewrite Rminus_eq_0, Rabs_R0. exact W0.
  - rewrite (both_high N _ _ HN G E1 E2). apply int_gap. rewrite Rminus_eq_0, Rabs_R0. exact W0.
Qed.

(* ---- decoders: within e of the exact value, on the codes of depth M ---- *)
Definition src_ok {K : XConst} (M : Z) (e : R) (decf : fl -> fl) (decx : xr -> xr) : Prop := forall k, (0 <= k <= M)%Z ->
  exists y, decx (dequantize M k) = Fin y /\ 0 <= y <= 1 /\ is_finite (decf (@dequantize _ ops M k)) = true /\ Rabs (B2R (decf (@dequantize _ ops M k)) - y) <= e.
Lemma xdeq {K : XConst} M k : (1 <= M)%Z -> dequantize M k = Fin (IZR k / IZR M).
Proof. intro H. unfold dequantize. cbn [rdiv rof_Z rlitd xr_ops xdiv]. rewrite q2r_int. destruct (Req_EM_T (IZR M) 0) as [E|]; [|reflexivity]. exfalso. apply eq_IZR in E. lia. Qed.
Lemma fdeq M k : (1 <= M <= 65535)%Z -> (0 <= k <= M)%Z -> let x := @dequantize _ ops M k in is_finite x = true /\ 0 <= B2R x <= 1 /\ 0 <= IZR k / IZR M <= 1 /\ Rabs (B2R x - IZR k / IZR M) <= u.
Proof.
  intros HM Hk x. assert (PP : (65535 <= 2 ^ prec)%Z). { apply Z.le_trans with (2 ^ 24)%Z; [lia|]. apply Z.pow_le_mono_r; lia. }
  destruct (dequantize_spec prec emax L lit M k ltac:(lia) Hk) as (F & V & B). pose proof (dequantize_err prec emax L lit M k ltac:(lia) Hk) as E. fold x in F, V, E. rewrite <- V in B. split; [exact F|]. split; [exact B|].
  assert (M1 : 1 <= IZR M) by (apply IZR_le; lia). assert (K0 : 0 <= IZR k <= IZR M) by (split; apply IZR_le; lia). assert (Q : IZR k / IZR M * IZR M = IZR k) by (field; lra). set (q := IZR k / IZR M) in *.
  split; [split; apply (Rmult_le_reg_r (IZR M)); lra|]. rewrite <- Q in E. replace (B2R x * IZR M - q * IZR M) with ((B2R x - q) * IZR M) in E by ring. rewrite Rabs_mult, (Rabs_pos_eq (IZR M)) in E by lra. apply (Rmult_le_reg_r (IZR M)); lra.
Qed.
Lemma src_linear {K : XConst} M : (1 <= M <= 65535)%Z -> src_ok M (1 * u) (fun x => x) (fun x => x).
Proof. intros HM k Hk. destruct (fdeq M k HM Hk) as (F & B & Q & E). exists (IZR k / IZR M). rewrite xdeq by lia. split; [reflexivity|]. split; [exact Q|]. split; [exact F|]. rewrite Rmult_1_l. exact E. Qed.
Lemma src_power {K : XConst} M (g : R) fg : (1 <= M <= 65535)%Z -> 2 <= g <= 2.7 -> is_finite fg = true -> rel (2 * u) (B2R fg) g -> src_ok M (13 * u) (fun x => pw x fg) (rootx g).
Proof.
  intros HM G Fg Rg k Hk. destruct (fdeq M k HM Hk) as (F & B & Q & E). destruct (CurveProofs.u24 prec P5) as [U0 U]. rewrite xdeq by lia. destruct (code_range prec emax P5 L lit M k HM Hk) as [_ R]. set (x := @dequantize _ ops M k) in *.
  pose proof (rel_bounds _ _ _ Rg) as Bg. assert (G2 : 1.9 <= B2R fg <= 2.71) by (clear - Bg G U0 U; nra).
  destruct (Z.eq_dec k 0) as [K0|K0].
  - assert (X0 : B2R x = 0). { destruct R as [R|R]; [exact R|]. rewrite K0 in E. unfold Rdiv in E. rewrite Rmult_0_l in E. apply Rabs_le_inv in E. lra. }
    exists 0. rewrite K0. unfold Rdiv. rewrite Rmult_0_l, rootx_zero by lra. split; [reflexivity|]. split; [lra|]. destruct (PZ x fg F Fg X0 ltac:(lra)) as [F1 Z1]. split; [exact F1|]. rewrite Z1, Rminus_0_r, Rabs_R0. lra.
  - assert (M1 : 1 <= IZR M <= 65535) by (split; apply IZR_le; lia). assert (K1 : 1 <= IZR k) by (apply IZR_le; lia).
    assert (Q0 : / 65535 <= IZR k / IZR M). { unfold Rdiv. apply Rle_trans with (1 * / IZR M); [rewrite Rmult_1_l; apply Rinv_le; lra|]. apply Rmult_le_compat_r; [apply Rlt_le, Rinv_0_lt_compat; lra|lra]. }
    set (q := IZR k / IZR M) in *. apply Rabs_le_inv in E. assert (R' : / 70000 <= B2R x <= 1) by (destruct R as [R|R]; [exfalso; lra|exact R]).
    exists (Rpower q g). rewrite rootx_pos by lra. split; [reflexivity|]. split. { split; [apply Rlt_le, exp_pos|]. rewrite <- (rpower_1 g). apply Rle_Rpower_l; lra. }
    destruct (power_abs prec emax P5 E5 pw PW g G fg Fg Rg x F R') as [F1 A]. split; [exact F1|]. apply Rabs_le_inv in A.
    destruct (Rle_dec (B2R x) q) as [O|O]; [pose proof (pow_lip_up g (B2R x) q ltac:(lra) ltac:(lra) ltac:(lra)) as W; assert (g * (q - B2R x) <= 2.7 * u) by (apply Rmult_le_compat; lra)|pose proof (pow_lip_up g q (B2R x) ltac:(lra) ltac:(lra) ltac:(lra)) as W; assert (g * (B2R x - q) <= 2.7 * u) by (apply Rmult_le_compat; lra)]; apply Rabs_le; lra.
Qed.
(* no code of depth 2^m - 1 is near a knee num/den *)
Definition depths : list Z := map (fun m => 2 ^ Z.of_nat m - 1)%Z (seq 1 16).
Definition clear_of (num den : Z) : bool := forallb (fun M => let r := ((M * num) mod den)%Z in (M * den <=? r * 1000000)%Z && (M * den <=? (den - r) * 1000000)%Z)%bool depths.
Lemma clear_ok num den M k : clear_of num den = true -> (0 < den)%Z -> (0 < M)%Z -> In M depths -> / 1000000 <= Rabs (IZR k / IZR M - IZR num / IZR den).
Proof.
  intros C HD HM I. unfold clear_of in C. rewrite forallb_forall in C. specialize (C M I). cbv zeta in C. rewrite andb_true_iff, !Z.leb_le in C. destruct C as [C1 C2].
  pose proof (Z.div_mod (M * num) den ltac:(lia)) as DM. pose proof (Z.mod_pos_bound (M * num) den HD) as RB. set (q := (M * num / den)%Z) in *. set (r := ((M * num) mod den)%Z) in *.
  assert (G : (M * den <= Z.abs (k * den - M * num) * 1000000)%Z). { destruct (Z_le_dec k q) as [O|O]; [rewrite Z.abs_neq by nia|rewrite Z.abs_eq by nia]; nia. }
  apply IZR_le in G. rewrite !mult_IZR, abs_IZR, minus_IZR, !mult_IZR in G. assert (M1 : 0 < IZR M) by (apply IZR_lt; lia). assert (D1 : 0 < IZR den) by (apply IZR_lt; lia).
  replace (IZR k / IZR M - IZR num / IZR den) with ((IZR k * IZR den - IZR M * IZR num) * / (IZR M * IZR den)) by (field; lra). assert (MD : 0 < IZR M * IZR den) by (apply Rmult_lt_0_compat; lra).
  rewrite Rabs_mult, (Rabs_pos_eq (/ (IZR M * IZR den))) by (apply Rlt_le, Rinv_0_lt_compat, MD). apply (Rmult_le_reg_r (IZR M * IZR den)); [exact MD|]. rewrite Rmult_assoc, Rinv_l by lra. lra.
Qed.
Lemma src_curve {K : XConst} M decf encf decR encR decx kn j num den : near_exact prec emax decf encf decR encR kn j -> (forall y, decx (Fin y) = Fin (decR y)) -> (1 <= M <= 65535)%Z -> In M depths -> kn = IZR num / IZR den -> (0 < den)%Z -> clear_of num den = true ->
  src_ok M (32 * u) decf decx.
Proof.
  intros [NE _] EX HM I -> HD C k Hk. destruct (fdeq M k HM Hk) as (F & B & Q & E). destruct (CurveProofs.u24 prec P5) as [U0 U]. pose proof (clear_ok num den M k C HD ltac:(lia) I) as A.
  destruct (NE _ _ F B Q E ltac:(lra)) as (F1 & E1 & B1). exists (decR (IZR k / IZR M)). rewrite xdeq, EX by lia. repeat split; try assumption; apply B1.
Qed.
End Fmt.
