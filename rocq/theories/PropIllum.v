(* C42-C43: daylight chromaticity from colour temperature *)
From Coq Require Import Reals ZArith QArith Qreals Lra Lia List Bool Psatz.
From Flocq Require Import Core BinarySingleNaN.
From Verif Require Import Outcome RealOps MathModel ColorModel IllumModel XReal SpecLin FloatInst FloatProofs.
Open Scope R_scope.

(* CIE daylight: x as a polynomial in u = 1000 / t, y on the daylight locus *)
Definition day_lo (u : R) : R := -4.607 * u ^ 3 + 2.9678 * u ^ 2 + 0.09911 * u + 0.244063.
Definition day_hi (u : R) : R := -2.0064 * u ^ 3 + 1.9018 * u ^ 2 + 0.24748 * u + 0.23704.
Definition locus (x : R) : R := -3 * x ^ 2 + 2.87 * x - 0.275.
Definition day_x (t : R) : R := if Rle_dec t 7000 then day_lo (1000 / t) else day_hi (1000 / t).

Section P.
Context {K : XConst}.

Lemma cct_fin t : 4000 <= t <= 25000 -> cct (Fin t) = Some (Xyy (Fin (day_x t)) (Fin (locus (day_x t))) (Fin 1)).
Proof.
  intros [H1 H2]. unfold cct, cct_y. xs. rewrite Rltb_false by (q2r; lra). rewrite Rltb_false by (q2r; lra). cbn [orb].
  assert (N1 : t <> 0) by lra. assert (N2 : t * t <> 0) by nra. assert (N3 : t * t * t <> 0).
  { apply Rmult_integral_contrapositive; split; assumption. }
  assert (E : forall x y, x = y -> Some (Xyy (Fin x) (Fin (- Q2R 3.0 * x * x + Q2R 2.870 * x - Q2R 0.275)) (Fin (Q2R 1.0)))
     = Some (Xyy (Fin y) (Fin (locus y)) (Fin 1))).
  { intros x y ->. unfold locus. f_equal. f_equal; apply (f_equal Fin); q2r; lra. }
  unfold day_x. destruct (Rle_dec t 7000) as [H|H].
  - rewrite Rleb_true by (q2r; lra). rewrite !x_div by assumption. xs. apply E. unfold day_lo. q2r. field. exact N1.
  - rewrite Rleb_false by (q2r; lra). rewrite !x_div by assumption. xs. apply E. unfold day_hi. q2r. field. exact N1.
Qed.

Lemma day_lo_incr u v : 0 <= u -> u < v -> v <= 1 / 4 -> day_lo u < day_lo v.
Proof.
  intros H0 H H1. unfold day_lo.
  assert (P : 0 < (v - u) * (-4.607 * (v ^ 2 + u * v + u ^ 2) + 2.9678 * (v + u) + 0.09911)).
  { apply Rmult_lt_0_compat; [lra|]. assert (v ^ 2 <= v / 4) by nra. assert (u ^ 2 <= u / 4) by nra. assert (u * v <= u / 4) by nra. lra. }
  lra.
Qed.
Lemma day_hi_incr u v : 0 <= u -> u < v -> v <= 1 / 4 -> day_hi u < day_hi v.
Proof.
  intros H0 H H1. unfold day_hi.
  assert (P : 0 < (v - u) * (-2.0064 * (v ^ 2 + u * v + u ^ 2) + 1.9018 * (v + u) + 0.24748)).
  { apply Rmult_lt_0_compat; [lra|]. assert (v ^ 2 <= v / 4) by nra. assert (u ^ 2 <= u / 4) by nra. assert (u * v <= u / 4) by nra. lra. }
  lra.
Qed.
Lemma inv_t t : 4000 <= t <= 25000 -> 1 / 25 <= 1000 / t <= 1 / 4.
Proof.
  intros [H1 H2]. assert (P : 0 < / t) by (apply Rinv_0_lt_compat; lra). assert (E : t * / t = 1) by (apply Rinv_r; lra).
  unfold Rdiv. nra.
Qed.
Lemma inv_lt t t' : 0 < t -> t < t' -> 1000 / t' < 1000 / t.
Proof. intros H0 H. unfold Rdiv. apply Rmult_lt_compat_l; [lra|]. apply Rinv_lt_contravar; [nra|exact H]. Qed.
Lemma day_x_decr t t' : 4000 <= t -> t < t' -> t' <= 25000 -> day_x t' < day_x t.
Proof.
  intros H0 H H1. pose proof (inv_lt t t' ltac:(lra) H). pose proof (inv_t t ltac:(lra)). pose proof (inv_t t' ltac:(lra)).
  unfold day_x. destruct (Rle_dec t' 7000), (Rle_dec t 7000); try lra.
  - apply day_lo_incr; lra.
  - (* across the switch: both branches are compared at 7000 K *)
    assert (A : 1000 / t' < 1 / 7). { replace (1 / 7) with (1000 / 7000) by lra. apply inv_lt; lra. }
    assert (B : 1 / 7 <= 1000 / t).
    { destruct (Req_dec t 7000) as [->|N]; [lra|]. left. replace (1 / 7) with (1000 / 7000) by lra. apply inv_lt; lra. }
    apply Rlt_trans with (day_hi (1 / 7)); [apply day_hi_incr; lra|].
    apply Rlt_le_trans with (day_lo (1 / 7)); [unfold day_hi, day_lo; lra|].
    destruct B as [B|B]; [left; apply day_lo_incr; lra|rewrite B; apply Rle_refl].
  - apply day_hi_incr; lra.
Qed.
Lemma day_x_range t : 4000 <= t <= 25000 -> 0.2498 < day_x t < 0.3824.
Proof.
  intro H. split.
  - apply Rlt_le_trans with (day_x 25000).
    + unfold day_x. destruct (Rle_dec 25000 7000); [lra|]. unfold day_hi. lra.
    + destruct (Req_dec t 25000) as [->|N]; [apply Rle_refl|]. left. apply day_x_decr; lra.
  - apply Rle_lt_trans with (day_x 4000).
    + destruct (Req_dec t 4000) as [->|N]; [apply Rle_refl|]. left. apply day_x_decr; lra.
    + unfold day_x. destruct (Rle_dec 4000 7000); [|lra]. unfold day_lo. lra.
Qed.

(* ---- C42 ---- *)
(* Finite temperatures.  NaN is accepted: see below. *)
Theorem C42_cct_partial : forall t : R,
  (cct (Fin t) = None <-> t < 4000 \/ 25000 < t)
  /\ (4000 <= t <= 25000 -> exists x y : R, cct (Fin t) = Some (Xyy (Fin x) (Fin y) (Fin 1))
       /\ 0 < x /\ 0 < y /\ x + y < 1
       /\ y = -3 * x ^ 2 + 2.87 * x - 0.275
       /\ (t <= 7000 -> x = -4.607 * (1000 / t) ^ 3 + 2.9678 * (1000 / t) ^ 2 + 0.09911 * (1000 / t) + 0.244063)
       /\ (7000 < t -> x = -2.0064 * (1000 / t) ^ 3 + 1.9018 * (1000 / t) ^ 2 + 0.24748 * (1000 / t) + 0.23704)).
Proof.
  intro t. split.
  - destruct (Rlt_dec t 4000) as [A|A]; [|destruct (Rlt_dec 25000 t) as [B|B]].
    + split; [intros _; lra|]. intros _. unfold cct. xs. rewrite Rltb_true by (q2r; lra). reflexivity.
    + split; [intros _; lra|]. intros _. unfold cct. xs. rewrite (Rltb_true _ t) by (q2r; lra). rewrite orb_true_r. reflexivity.
    + rewrite cct_fin by lra. split; [discriminate|lra].
  - intro H. exists (day_x t), (locus (day_x t)). split; [apply cct_fin, H|].
    pose proof (day_x_range t H) as R. set (x := day_x t) in *. unfold locus.
    assert (Y : 0 < -3 * x ^ 2 + 2.87 * x - 0.275) by nra.
    assert (S : x + (-3 * x ^ 2 + 2.87 * x - 0.275) < 1) by nra.
    repeat split; try lra; intro L; unfold x, day_x; destruct (Rle_dec t 7000); try lra; reflexivity.
Qed.

(* ---- C43 ---- *)
(* also across the switch at 7000 K *)
Theorem C43_cct_strictly_decreasing : forall t t' : R, 4000 <= t -> t < t' -> t' <= 25000 ->
  exists x y x' y' : R, cct (Fin t) = Some (Xyy (Fin x) (Fin y) (Fin 1))
    /\ cct (Fin t') = Some (Xyy (Fin x') (Fin y') (Fin 1)) /\ x' < x /\ y' < y.
Proof.
  intros t t' H0 H H1. exists (day_x t), (locus (day_x t)), (day_x t'), (locus (day_x t')).
  rewrite !cct_fin by lra. split; [reflexivity|]. split; [reflexivity|].
  pose proof (day_x_decr t t' H0 H H1). pose proof (day_x_range t ltac:(lra)). pose proof (day_x_range t' ltac:(lra)).
  split; [assumption|]. unfold locus. nra.
Qed.
Example C43_example : exists x y, cct (Fin 5000) = Some (Xyy (Fin x) (Fin y) (Fin 1)) /\ x = 0.345741.
Proof.
  eexists; eexists. split; [apply cct_fin; lra|]. unfold day_x. destruct (Rle_dec 5000 7000); [|lra]. unfold day_lo. lra.
Qed.
End P.

(* ---- floats ---- *)
Section F.
Context (prec emax : Z) {Hp : Prec_gt_0 prec} {He : Prec_lt_emax prec emax}.
Context (L : libm (binary_float prec emax)) (lit : Q -> binary_float prec emax).
Notation fl := (binary_float prec emax).
Notation ops := (b_ops prec emax L lit).

(* every temperature that is a number is classified exactly, infinities included *)
Theorem C42_cct_float_domain : forall t : fl,
  is_finite (lit 4000.0) = true -> B2R (lit 4000.0) = 4000 ->
  is_finite (lit 25000.0) = true -> B2R (lit 25000.0) = 25000 ->
  (is_finite t = true -> (@cct _ ops t = None <-> B2R t < 4000 \/ 25000 < B2R t))
  /\ @cct _ ops (B754_infinity false) = None /\ @cct _ ops (B754_infinity true) = None.
Proof.
  intros t F4 V4 F25 V25.
  assert (E : @cct _ ops t = None <-> (Bltb t (lit 4000.0) || Bltb (lit 25000.0) t)%bool = true).
  { unfold cct. cbn [rlt rlit b_ops]. destruct (_ || _)%bool; [tauto|]. destruct (rle _ _); split; discriminate. }
  split; [|split].
  - intro Ft. rewrite E. rewrite !Bltb_correct, V4, V25 by assumption. rewrite orb_true_iff.
    destruct (Rlt_bool_spec (B2R t) 4000), (Rlt_bool_spec 25000 (B2R t)); split; intro; try lra; tauto || (right; reflexivity) || (left; reflexivity) || intuition discriminate.
  - unfold cct. cbn [rlt rlit b_ops]. destruct (lit 25000.0) as [s|s| |s m e b]; try discriminate; rewrite orb_true_r; reflexivity.
  - unfold cct. cbn [rlt rlit b_ops]. destruct (lit 4000.0) as [s|s| |s m e b]; try discriminate; reflexivity.
Qed.

(* NaN is outside [4000,25000] but is not rejected, in any format *)
Theorem C42_cct_nan_refuted : exists c : xyy fl,
  @cct _ ops B754_nan = Some c /\ xyy_x c = B754_nan /\ xyy_y c = B754_nan.
Proof.
  assert (A : forall x : fl, @rlt _ ops B754_nan x = false) by (intros [| | |]; reflexivity).
  assert (B : forall x : fl, @rlt _ ops x B754_nan = false) by (intros [| | |]; reflexivity).
  assert (C : forall x : fl, @rle _ ops B754_nan x = false) by (intros [| | |]; reflexivity).
  assert (M : forall x : fl, @rmul _ ops x B754_nan = B754_nan) by (intros [| | |]; reflexivity).
  assert (D : forall x : fl, @rdiv _ ops x B754_nan = B754_nan) by (intros [| | |]; reflexivity).
  assert (P : forall x : fl, @radd _ ops x B754_nan = B754_nan) by (intros [| | |]; reflexivity).
  assert (P' : forall x : fl, @radd _ ops B754_nan x = B754_nan) by (intros [| | |]; reflexivity).
  assert (S : forall x : fl, @rsub _ ops B754_nan x = B754_nan) by (intros [| | |]; reflexivity).
  eexists. unfold cct, cct_y. rewrite A, B, C. cbn [orb]. split; [reflexivity|]. cbn [xyy_x xyy_y].
  rewrite !M, !D, !P, !P', !M, !P, !S. split; reflexivity.
Qed.
End F.

(* the hypotheses on the literals hold for f32 and f64 *)
Example C42_literals :
  (B2R (b_of_Q 53 1024 4000.0) = 4000 /\ is_finite (b_of_Q 53 1024 4000.0) = true)
  /\ (B2R (b_of_Q 24 128 25000.0) = 25000 /\ is_finite (b_of_Q 24 128 25000.0) = true).
Proof.
  split.
  - apply (b_of_Q_int 53 1024 4000.0 4000); [unfold Q2R; cbn; lra|cbn; lia].
  - apply (b_of_Q_int 24 128 25000.0 25000); [unfold Q2R; cbn; lra|cbn; lia].
Qed.

Print Assumptions C42_cct_partial.
Print Assumptions C42_cct_float_domain.
Print Assumptions C43_cct_strictly_decreasing.
