(* C98: how far interpolated values may leave the range of the samples *)
From Coq Require Import Reals ZArith QArith Qreals Lra Lia Psatz Bool List Sorting.Sorted.
From Flocq Require Import Core BinarySingleNaN.
From Verif Require Import Outcome RealOps MathModel ColorModel InterpModel VspdModel XReal SpecLin FloatInst FloatProofs ErrProofs CurveProofs VspdProofs SpragueProofs PropShape PropSprague AlignProofs PropAlign LagrangeProofs WeightProofs PropWeights LinProofs XyzProofs SpragueErrProofs PropInterp.
Import ListNotations.
Open Scope R_scope.

(* ---- the weights of the six samples ---- *)
Lemma six_sum w0 w1 w2 w3 w4 w5 v0 v1 v2 v3 v4 v5 c m : Rabs v0 <= m -> Rabs v1 <= m -> Rabs v2 <= m -> Rabs v3 <= m -> Rabs v4 <= m -> Rabs v5 <= m ->
  Rabs w0 + Rabs w1 + Rabs w2 + Rabs w3 + Rabs w4 + Rabs w5 <= c ->
  Rabs (w0 * v0 + w1 * v1 + w2 * v2 + w3 * v3 + w4 * v4 + w5 * v5) <= c * m.
Proof.
  intros H0 H1 H2 H3 H4 H5 H. assert (M : 0 <= m) by (pose proof (Rabs_pos v0); lra).
  assert (A : forall w v, Rabs v <= m -> Rabs (w * v) <= Rabs w * m) by (intros w v V; rewrite Rabs_mult; apply Rmult_le_compat_l; [apply Rabs_pos|exact V]).
  assert (T : forall a b x y, Rabs a <= x -> Rabs b <= y -> Rabs (a + b) <= x + y) by (intros; eapply Rle_trans; [apply Rabs_triang|lra]).
  eapply Rle_trans; [repeat apply T; apply A; assumption|]. apply Rle_trans with ((Rabs w0 + Rabs w1 + Rabs w2 + Rabs w3 + Rabs w4 + Rabs w5) * m); [right; ring|]. apply Rmult_le_compat_r; assumption.
Qed.
Section Q.
Context (q : R) (Q : 0 <= q <= 1).
Let t := q * (1 - q).
Lemma t01 : 0 <= t <= / 4.
Proof. unfold t. split; [apply Rmult_le_pos; lra|]. pose proof (pow2_ge_0 (q - / 2)). lra. Qed.
Lemma tpos g : 0 <= g -> Rabs (t * g) = t * g. Proof. intro H. apply Rabs_pos_eq, Rmult_le_pos; [apply t01|exact H]. Qed.
Lemma tneg g : 0 <= g -> Rabs (t * - g) = t * g. Proof. intro H. replace (t * - g) with (- (t * g)) by ring. rewrite Rabs_Ropp. apply tpos, H. Qed.

Lemma bern3 b0 b1 b2 b3 g : 0 <= b0 -> 0 <= b1 -> 0 <= b2 -> 0 <= b3 ->
  g = b0 * ((1 - q) * (1 - q) * (1 - q)) + 3 * b1 * (q * (1 - q) * (1 - q)) + 3 * b2 * (q * q * (1 - q)) + b3 * (q * q * q) -> 0 <= g.
Proof. intros. subst g. repeat apply Rplus_le_le_0_compat; repeat apply Rmult_le_pos; lra. Qed.
Lemma bern4 b0 b1 b2 b3 b4 g : 0 <= b0 -> 0 <= b1 -> 0 <= b2 -> 0 <= b3 -> 0 <= b4 ->
  g = b0 * ((1 - q) * (1 - q) * (1 - q) * (1 - q)) + 4 * b1 * (q * (1 - q) * (1 - q) * (1 - q)) + 6 * b2 * (q * q * (1 - q) * (1 - q)) + 4 * b3 * (q * q * q * (1 - q)) + b4 * (q * q * q * q) -> 0 <= g.
Proof. intros. subst g. repeat apply Rplus_le_le_0_compat; repeat apply Rmult_le_pos; lra. Qed.

(* six samples around the piece *)
Lemma inner_weights : exists w0 w1 w2 w3 w4 w5, Rabs w0 + Rabs w1 + Rabs w2 + Rabs w3 + Rabs w4 + Rabs w5 <= 89 / 64 /\ w0 + w1 + w2 + w3 + w4 + w5 = 1
  /\ forall r0 r1 r2 r3 r4 r5, P0 (seg6 r0 r1 r2 r3 r4 r5) q = w0 * r0 + w1 * r1 + w2 * r2 + w3 * r3 + w4 * r4 + w5 * r5.
Proof.
  pose proof t01 as TT.
  set (g0 := (1 - q) * (2 + 3 * q - 5 * (q * q)) / 24). set (g1 := 2 / 3 - 13 / 8 * (q * q) + 25 / 24 * (q * q * q)).
  set (g2 := 1 + q - / 4 * (q * q) - 19 / 6 * (q * q * q) + 25 / 12 * (q * q * q * q)). set (g3 := 2 / 3 + 2 / 3 * q + 11 / 4 * (q * q) - 31 / 6 * (q * q * q) + 25 / 12 * (q * q * q * q)).
  set (g4 := / 12 + / 8 * q + 3 / 2 * (q * q) - 25 / 24 * (q * q * q)). set (g5 := 7 / 24 * (q * q) - 5 / 24 * (q * q * q)).
  assert (G0 : 0 <= g0). { unfold g0. apply Rmult_le_pos; [|lra]. apply Rmult_le_pos; [lra|]. nra. }
  assert (G1 : 0 <= g1) by (apply (bern3 (2 / 3) (2 / 3) (/ 8) (/ 12)); try lra; unfold g1; field). assert (G4 : 0 <= g4) by (apply (bern3 (/ 12) (/ 8) (2 / 3) (2 / 3)); try lra; unfold g4; field). assert (G5 : 0 <= g5) by (apply (bern3 0 0 (7 / 72) (/ 12)); try lra; unfold g5; field).
  assert (G2 : 0 <= (1 - q) * g2). { apply Rmult_le_pos; [lra|]. apply (bern4 1 (5 / 4) (35 / 24) (5 / 6) (2 / 3)); try lra. unfold g2. field. }
  assert (G3 : 0 <= q * g3). { apply Rmult_le_pos; [lra|]. apply (bern4 (2 / 3) (5 / 6) (35 / 24) (5 / 4) 1); try lra. unfold g3. field. }
  exists (t * g0), (t * - g1), ((1 - q) * g2), (q * g3), (t * - g4), (t * g5).
  split; [|split; [unfold t, g0, g1, g2, g3, g4, g5; field|intros; unfold seg6, C0, C1; cbn [P0 dotp]; unfold t, g0, g1, g2, g3, g4, g5; field]].
  rewrite (tpos g0), (tneg g1), (tneg g4), (tpos g5), (Rabs_pos_eq ((1 - q) * g2)), (Rabs_pos_eq (q * g3)) by assumption.
  replace (t * g0 + t * g1 + (1 - q) * g2 + q * g3 + t * g4 + t * g5) with (1 + 2 * t * (3 / 4 + t / 8)) by (unfold t, g0, g1, g2, g3, g4, g5; field).
  assert (t * t <= / 4 * / 4) by (apply Rmult_le_compat; lra). lra.
Qed.
Lemma first_weights : exists w0 w1 w2 w3 w4 w5, Rabs w0 + Rabs w1 + Rabs w2 + Rabs w3 + Rabs w4 + Rabs w5 <= 89 / 64 /\ w0 + w1 + w2 + w3 + w4 + w5 = 1
  /\ forall v0 v1 v2 v3 v4 v5, P0 (seg6 (dotp C0 [v0; v1; v2; v3; v4; v5] / 209) (dotp C1 [v0; v1; v2; v3; v4; v5] / 209) v0 v1 v2 v3) q = w0 * v0 + w1 * v1 + w2 * v2 + w3 * v3 + w4 * v4 + w5 * v5.
Proof.
  pose proof t01 as TT.
  set (g0 := 1 / 1 - 56 / 209 * q - 185 / 2508 * (q * q) - 131 / 209 * (q * q * q) + 1085 / 2508 * (q * q * q * q)).
  set (g1 := 336 / 209 - 139 / 209 * q + 91 / 44 * (q * q) - 1403 / 418 * (q * q * q) + 1125 / 836 * (q * q * q * q)).
  set (g2 := 90 / 209 - 401 / 836 * q + 1063 / 418 * (q * q) - 1365 / 836 * (q * q * q)).
  set (g3 := 24 / 209 - 331 / 627 * q + 1389 / 836 * (q * q) - 2555 / 2508 * (q * q * q)).
  set (g4 := 6 / 209 - 45 / 209 * q + 126 / 209 * (q * q) - 75 / 209 * (q * q * q)).
  set (g5 := 1 / 209 - 15 / 418 * q + 21 / 209 * (q * q) - 25 / 418 * (q * q * q)).
  assert (G0 : 0 <= (1 - q) * g0). { apply Rmult_le_pos; [lra|]. apply (bern4 (1) (195 / 209) (12847 / 15048) (3037 / 5016) (97 / 209)); try lra; unfold g0; field. }
  assert (G1 : 0 <= q * g1). { apply Rmult_le_pos; [lra|]. apply (bern4 (336 / 209) (1205 / 836) (8125 / 5016) (545 / 418) (1)); try lra; unfold g1; field. }
  assert (G2 : 0 <= g2) by (apply (bern3 (90 / 209) (679 / 2508) (601 / 627) (180 / 209)); try lra; unfold g2; field).
  assert (G3 : 0 <= g3).
  {
    destruct (Rle_dec q (1 / 2)); [replace (g3) with ((192 / 209) * (((1 / 2) - q) * ((1 / 2) - q) * ((1 / 2) - q)) + (404 / 627) * ((q - (0 / 1)) * ((1 / 2) - q) * ((1 / 2) - q)) + (2327 / 1254) * ((q - (0 / 1)) * (q - (0 / 1)) * ((1 / 2) - q)) + (929 / 836) * ((q - (0 / 1)) * (q - (0 / 1)) * (q - (0 / 1)))) by (unfold g3; field); repeat apply Rplus_le_le_0_compat; repeat apply Rmult_le_pos; lra|].
    replace (g3) with ((929 / 836) * (((1 / 1) - q) * ((1 / 1) - q) * ((1 / 1) - q)) + (3017 / 627) * ((q - (1 / 2)) * ((1 / 1) - q) * ((1 / 1) - q)) + (4111 / 627) * ((q - (1 / 2)) * (q - (1 / 2)) * ((1 / 1) - q)) + (384 / 209) * ((q - (1 / 2)) * (q - (1 / 2)) * (q - (1 / 2)))) by (unfold g3; field); repeat apply Rplus_le_le_0_compat; repeat apply Rmult_le_pos; lra.
  }
  assert (G4 : 0 <= g4).
  {
    destruct (Rle_dec q (1 / 4)); [replace (g4) with ((384 / 209) * (((1 / 4) - q) * ((1 / 4) - q) * ((1 / 4) - q)) + (432 / 209) * ((q - (0 / 1)) * ((1 / 4) - q) * ((1 / 4) - q)) + (216 / 209) * ((q - (0 / 1)) * (q - (0 / 1)) * ((1 / 4) - q)) + (93 / 209) * ((q - (0 / 1)) * (q - (0 / 1)) * (q - (0 / 1)))) by (unfold g4; field); repeat apply Rplus_le_le_0_compat; repeat apply Rmult_le_pos; lra|].
    destruct (Rle_dec q (1 / 2)); [replace (g4) with ((93 / 209) * (((1 / 2) - q) * ((1 / 2) - q) * ((1 / 2) - q)) + (18 / 11) * ((q - (1 / 4)) * ((1 / 2) - q) * ((1 / 2) - q)) + (36 / 11) * ((q - (1 / 4)) * (q - (1 / 4)) * ((1 / 2) - q)) + (360 / 209) * ((q - (1 / 4)) * (q - (1 / 4)) * (q - (1 / 4)))) by (unfold g4; field); repeat apply Rplus_le_le_0_compat; repeat apply Rmult_le_pos; lra|].
    replace (g4) with ((45 / 209) * (((1 / 1) - q) * ((1 / 1) - q) * ((1 / 1) - q)) + (234 / 209) * ((q - (1 / 2)) * ((1 / 1) - q) * ((1 / 1) - q)) + (360 / 209) * ((q - (1 / 2)) * (q - (1 / 2)) * ((1 / 1) - q)) + (96 / 209) * ((q - (1 / 2)) * (q - (1 / 2)) * (q - (1 / 2)))) by (unfold g4; field); repeat apply Rplus_le_le_0_compat; repeat apply Rmult_le_pos; lra.
  }
  assert (G5 : 0 <= g5).
  {
    destruct (Rle_dec q (1 / 4)); [replace (g5) with ((64 / 209) * (((1 / 4) - q) * ((1 / 4) - q) * ((1 / 4) - q)) + (72 / 209) * ((q - (0 / 1)) * ((1 / 4) - q) * ((1 / 4) - q)) + (36 / 209) * ((q - (0 / 1)) * (q - (0 / 1)) * ((1 / 4) - q)) + (31 / 418) * ((q - (0 / 1)) * (q - (0 / 1)) * (q - (0 / 1)))) by (unfold g5; field); repeat apply Rplus_le_le_0_compat; repeat apply Rmult_le_pos; lra|].
    destruct (Rle_dec q (1 / 2)); [replace (g5) with ((31 / 418) * (((1 / 2) - q) * ((1 / 2) - q) * ((1 / 2) - q)) + (3 / 11) * ((q - (1 / 4)) * ((1 / 2) - q) * ((1 / 2) - q)) + (6 / 11) * ((q - (1 / 4)) * (q - (1 / 4)) * ((1 / 2) - q)) + (60 / 209) * ((q - (1 / 4)) * (q - (1 / 4)) * (q - (1 / 4)))) by (unfold g5; field); repeat apply Rplus_le_le_0_compat; repeat apply Rmult_le_pos; lra|].
    replace (g5) with ((15 / 418) * (((1 / 1) - q) * ((1 / 1) - q) * ((1 / 1) - q)) + (39 / 209) * ((q - (1 / 2)) * ((1 / 1) - q) * ((1 / 1) - q)) + (60 / 209) * ((q - (1 / 2)) * (q - (1 / 2)) * ((1 / 1) - q)) + (16 / 209) * ((q - (1 / 2)) * (q - (1 / 2)) * (q - (1 / 2)))) by (unfold g5; field); repeat apply Rplus_le_le_0_compat; repeat apply Rmult_le_pos; lra.
  }
  exists ((1 - q) * g0), (q * g1), (t * - g2), (t * g3), (t * - g4), (t * g5).
  split; [|split; [unfold t, g0, g1, g2, g3, g4, g5; field|intros; unfold seg6, C0, C1; cbn [P0 dotp]; unfold t, g0, g1, g2, g3, g4, g5; field]].
  rewrite (tneg g2), (tpos g3), (tneg g4), (tpos g5) by assumption.
  rewrite (Rabs_pos_eq ((1 - q) * g0)) by assumption.
  rewrite (Rabs_pos_eq (q * g1)) by assumption.
  replace ((1 - q) * g0 + q * g1 + t * g2 + t * g3 + t * g4 + t * g5) with (1 + 2 * (t * (96 / 209 - 581 / 836 * q + 1315 / 418 * (q * q) - 1665 / 836 * (q * q * q)))) by (unfold t, g0, g1, g2, g3, g4, g5; field).
  assert (0 <= 25 / 64 - 2 * (t * (96 / 209 - 581 / 836 * q + 1315 / 418 * (q * q) - 1665 / 836 * (q * q * q)))).
  {
    destruct (Rle_dec q (1 / 2)); [replace (25 / 64 - 2 * (t * (96 / 209 - 581 / 836 * q + 1315 / 418 * (q * q) - 1665 / 836 * (q * q * q)))) with ((25 / 2) * (((1 / 2) - q) * ((1 / 2) - q) * ((1 / 2) - q) * ((1 / 2) - q) * ((1 / 2) - q)) + (19981 / 418) * ((q - (0 / 1)) * ((1 / 2) - q) * ((1 / 2) - q) * ((1 / 2) - q) * ((1 / 2) - q)) + (17697 / 209) * ((q - (0 / 1)) * (q - (0 / 1)) * ((1 / 2) - q) * ((1 / 2) - q) * ((1 / 2) - q)) + (12851 / 209) * ((q - (0 / 1)) * (q - (0 / 1)) * (q - (0 / 1)) * ((1 / 2) - q) * ((1 / 2) - q)) + (7611 / 418) * ((q - (0 / 1)) * (q - (0 / 1)) * (q - (0 / 1)) * (q - (0 / 1)) * ((1 / 2) - q)) + (441 / 209) * ((q - (0 / 1)) * (q - (0 / 1)) * (q - (0 / 1)) * (q - (0 / 1)) * (q - (0 / 1)))) by (unfold t; field); repeat apply Rplus_le_le_0_compat; repeat apply Rmult_le_pos; lra|].
    replace (25 / 64 - 2 * (t * (96 / 209 - 581 / 836 * q + 1315 / 418 * (q * q) - 1665 / 836 * (q * q * q)))) with ((441 / 209) * (((1 / 1) - q) * ((1 / 1) - q) * ((1 / 1) - q) * ((1 / 1) - q) * ((1 / 1) - q)) + (1209 / 418) * ((q - (1 / 2)) * ((1 / 1) - q) * ((1 / 1) - q) * ((1 / 1) - q) * ((1 / 1) - q)) + (47 / 209) * ((q - (1 / 2)) * (q - (1 / 2)) * ((1 / 1) - q) * ((1 / 1) - q) * ((1 / 1) - q)) + (3357 / 209) * ((q - (1 / 2)) * (q - (1 / 2)) * (q - (1 / 2)) * ((1 / 1) - q) * ((1 / 1) - q)) + (13837 / 418) * ((q - (1 / 2)) * (q - (1 / 2)) * (q - (1 / 2)) * (q - (1 / 2)) * ((1 / 1) - q)) + (25 / 2) * ((q - (1 / 2)) * (q - (1 / 2)) * (q - (1 / 2)) * (q - (1 / 2)) * (q - (1 / 2)))) by (unfold t; field); repeat apply Rplus_le_le_0_compat; repeat apply Rmult_le_pos; lra.
  }
  lra.
Qed.
Lemma second_weights : exists w0 w1 w2 w3 w4 w5, Rabs w0 + Rabs w1 + Rabs w2 + Rabs w3 + Rabs w4 + Rabs w5 <= 89 / 64 /\ w0 + w1 + w2 + w3 + w4 + w5 = 1
  /\ forall v0 v1 v2 v3 v4 v5, P0 (seg6 (dotp C1 [v0; v1; v2; v3; v4; v5] / 209) v0 v1 v2 v3 v4) q = w0 * v0 + w1 * v1 + w2 * v2 + w3 * v3 + w4 * v4 + w5 * v5.
Proof.
  pose proof t01 as TT.
  set (g0 := 97 / 209 - 127 / 1254 * q - 4087 / 5016 * (q * q) + 895 / 1672 * (q * q * q)).
  set (g1 := 1 / 1 + 164 / 209 * q - 299 / 836 * (q * q) - 2891 / 1254 * (q * q * q) + 3875 / 2508 * (q * q * q * q)).
  set (g2 := 180 / 209 + 119 / 209 * q + 1567 / 836 * (q * q) - 1631 / 418 * (q * q * q) + 1335 / 836 * (q * q * q * q)).
  set (g3 := 48 / 209 + 497 / 2508 * q + 1147 / 1254 * (q * q) - 565 / 836 * (q * q * q)).
  set (g4 := 12 / 209 + 6 / 209 * q + 311 / 5016 * (q * q) - 325 / 5016 * (q * q * q)).
  set (g5 := 2 / 209 + 1 / 209 * q - 8 / 209 * (q * q) + 5 / 209 * (q * q * q)).
  assert (G0 : 0 <= g0) by (apply (bern3 (97 / 209) (1619 / 3762) (1 / 8) (1 / 12)); try lra; unfold g0; field).
  assert (G1 : 0 <= (1 - q) * g1). { apply Rmult_le_pos; [lra|]. apply (bern4 (1) (250 / 209) (6685 / 5016) (5 / 6) (2 / 3)); try lra; unfold g1; field. }
  assert (G2 : 0 <= q * g2). { apply Rmult_le_pos; [lra|]. apply (bern4 (180 / 209) (839 / 836) (35 / 24) (5 / 4) (1)); try lra; unfold g2; field. }
  assert (G3 : 0 <= g3) by (apply (bern3 (48 / 209) (2225 / 7524) (2 / 3) (2 / 3)); try lra; unfold g3; field).
  assert (G4 : 0 <= g4) by (apply (bern3 (12 / 209) (14 / 209) (7 / 72) (1 / 12)); try lra; unfold g4; field).
  assert (G5 : 0 <= g5) by (apply (bern3 (2 / 209) (7 / 627) 0 0); try lra; unfold g5; field).
  exists (t * - g0), ((1 - q) * g1), (q * g2), (t * - g3), (t * g4), (t * - g5).
  split; [|split; [unfold t, g0, g1, g2, g3, g4, g5; field|intros; unfold seg6, C0, C1; cbn [P0 dotp]; unfold t, g0, g1, g2, g3, g4, g5; field]].
  rewrite (tneg g0), (tneg g3), (tpos g4), (tneg g5) by assumption.
  rewrite (Rabs_pos_eq ((1 - q) * g1)) by assumption.
  rewrite (Rabs_pos_eq (q * g2)) by assumption.
  replace (t * g0 + (1 - q) * g1 + q * g2 + t * g3 + t * g4 + t * g5) with (1 + 2 * (t * (147 / 209 + 85 / 836 * q + 103 / 1672 * (q * q) - 195 / 1672 * (q * q * q)))) by (unfold t, g0, g1, g2, g3, g4, g5; field).
  assert (0 <= 25 / 64 - 2 * (t * (147 / 209 + 85 / 836 * q + 103 / 1672 * (q * q) - 195 / 1672 * (q * q * q)))).
  {
    destruct (Rle_dec q (1 / 2)); [replace (25 / 64 - 2 * (t * (147 / 209 + 85 / 836 * q + 103 / 1672 * (q * q) - 195 / 1672 * (q * q * q)))) with ((25 / 2) * (((1 / 2) - q) * ((1 / 2) - q) * ((1 / 2) - q) * ((1 / 2) - q) * ((1 / 2) - q)) + (16717 / 418) * ((q - (0 / 1)) * ((1 / 2) - q) * ((1 / 2) - q) * ((1 / 2) - q) * ((1 / 2) - q)) + (9321 / 209) * ((q - (0 / 1)) * (q - (0 / 1)) * ((1 / 2) - q) * ((1 / 2) - q) * ((1 / 2) - q)) + (364 / 19) * ((q - (0 / 1)) * (q - (0 / 1)) * (q - (0 / 1)) * ((1 / 2) - q) * ((1 / 2) - q)) + (1131 / 418) * ((q - (0 / 1)) * (q - (0 / 1)) * (q - (0 / 1)) * (q - (0 / 1)) * ((1 / 2) - q)) + (351 / 836) * ((q - (0 / 1)) * (q - (0 / 1)) * (q - (0 / 1)) * (q - (0 / 1)) * (q - (0 / 1)))) by (unfold t; field); repeat apply Rplus_le_le_0_compat; repeat apply Rmult_le_pos; lra|].
    replace (25 / 64 - 2 * (t * (147 / 209 + 85 / 836 * q + 103 / 1672 * (q * q) - 195 / 1672 * (q * q * q)))) with ((351 / 836) * (((1 / 1) - q) * ((1 / 1) - q) * ((1 / 1) - q) * ((1 / 1) - q) * ((1 / 1) - q)) + (312 / 209) * ((q - (1 / 2)) * ((1 / 1) - q) * ((1 / 1) - q) * ((1 / 1) - q) * ((1 / 1) - q)) + (2990 / 209) * ((q - (1 / 2)) * (q - (1 / 2)) * ((1 / 1) - q) * ((1 / 1) - q) * ((1 / 1) - q)) + (39 / 1) * ((q - (1 / 2)) * (q - (1 / 2)) * (q - (1 / 2)) * ((1 / 1) - q) * ((1 / 1) - q)) + (77 / 2) * ((q - (1 / 2)) * (q - (1 / 2)) * (q - (1 / 2)) * (q - (1 / 2)) * ((1 / 1) - q)) + (25 / 2) * ((q - (1 / 2)) * (q - (1 / 2)) * (q - (1 / 2)) * (q - (1 / 2)) * (q - (1 / 2)))) by (unfold t; field); repeat apply Rplus_le_le_0_compat; repeat apply Rmult_le_pos; lra.
  }
  lra.
Qed.
End Q.

Lemma mirror q r0 r1 r2 r3 r4 r5 : P0 (seg6 r0 r1 r2 r3 r4 r5) q = P0 (seg6 r5 r4 r3 r2 r1 r0) (1 - q).
Proof. unfold seg6. cbn [P0]. field. Qed.

(* every piece of an interpolation is a combination of six samples in a row *)
Definition six_at (b : nat) (w0 w1 w2 w3 w4 w5 : R) (v : list R) : R :=
  w0 * nth b v 0 + w1 * nth (b + 1) v 0 + w2 * nth (b + 2) v 0 + w3 * nth (b + 3) v 0 + w4 * nth (b + 4) v 0 + w5 * nth (b + 5) v 0.
Lemma ext_pos v k : (k < length v)%nat -> nth (S (S k)) (ext v) 0 = nth k v 0.
Proof. intro H. replace (S (S k)) with (k + 2)%nat by lia. apply ext_nth, H. Qed.
Lemma ext_end v k : k = length v -> nth (S (S k)) (ext v) 0 = dotp C1 (rev v) / 209 /\ nth (S (S (S k))) (ext v) 0 = dotp C0 (rev v) / 209.
Proof. intros ->. unfold ext. cbn [app nth]. rewrite !app_nth2 by lia. replace (length v - length v)%nat with 0%nat by lia. replace (S (length v) - length v)%nat with 1%nat by lia. split; reflexivity. Qed.
Lemma first6 v : (6 <= length v)%nat -> exists r, v = nth 0 v 0 :: nth 1 v 0 :: nth 2 v 0 :: nth 3 v 0 :: nth 4 v 0 :: nth 5 v 0 :: r.
Proof. intro H. destruct (six v H) as (a0 & a1 & a2 & a3 & a4 & a5 & r & ->). exists r. reflexivity. Qed.
Lemma dot6 C v : (6 <= length v)%nat -> length C = 6%nat -> dotp C v = dotp C [nth 0 v 0; nth 1 v 0; nth 2 v 0; nth 3 v 0; nth 4 v 0; nth 5 v 0].
Proof.
  intros H L. destruct (six v H) as (a0 & a1 & a2 & a3 & a4 & a5 & r & ->). cbn [nth]. do 6 (destruct C as [|? C]; [discriminate|]). destruct C; [|discriminate]. reflexivity.
Qed.
Lemma rev_at (v : list R) k : (k < length v)%nat -> nth k (rev v) 0 = nth (length v - S k) v 0.
Proof. intro H. apply rev_nth, H. Qed.
Lemma piece_weights n k q : (6 <= n)%nat -> (S k < n)%nat -> 0 <= q <= 1 -> exists b w0 w1 w2 w3 w4 w5, (b + 6 <= n)%nat
  /\ Rabs w0 + Rabs w1 + Rabs w2 + Rabs w3 + Rabs w4 + Rabs w5 <= 89 / 64 /\ w0 + w1 + w2 + w3 + w4 + w5 = 1
  /\ forall v, length v = n -> P0 (seg (ext v) (k + 2)) q = six_at b w0 w1 w2 w3 w4 w5 v.
Proof.
  intros Hn Hk Q. assert (Q' : 0 <= 1 - q <= 1) by lra.
  assert (S6 : forall v, seg (ext v) (k + 2) = seg6 (nth k (ext v) 0) (nth (S k) (ext v) 0) (nth (S (S k)) (ext v) 0) (nth (S (S (S k))) (ext v) 0) (nth (S (S (S (S k)))) (ext v) 0) (nth (S (S (S (S (S k))))) (ext v) 0)) by (intro v; unfold seg; repeat f_equal; lia).
  destruct (Nat.eq_dec k 0) as [->|K0].
  { destruct (first_weights q Q) as (w0 & w1 & w2 & w3 & w4 & w5 & A & B & C). exists 0%nat, w0, w1, w2, w3, w4, w5. split; [lia|]. split; [exact A|]. split; [exact B|]. intros v L. rewrite S6, !ext_pos by lia. unfold six_at. cbn [Nat.add].
    rewrite <- C. unfold ext. cbn [app nth]. rewrite (dot6 C0 v), (dot6 C1 v) by (reflexivity || lia). reflexivity. }
  destruct (Nat.eq_dec k 1) as [->|K1].
  { destruct (second_weights q Q) as (w0 & w1 & w2 & w3 & w4 & w5 & A & B & C). exists 0%nat, w0, w1, w2, w3, w4, w5. split; [lia|]. split; [exact A|]. split; [exact B|]. intros v L. rewrite S6, !ext_pos by lia. unfold six_at. cbn [Nat.add].
    rewrite <- C. unfold ext. cbn [app nth]. rewrite (dot6 C1 v) by (reflexivity || lia). reflexivity. }
  destruct k as [|[|k]]; [lia|lia|]. clear K0 K1.
  destruct (Nat.eq_dec (k + 4) n) as [E|K2].
  { destruct (first_weights (1 - q) Q') as (w0 & w1 & w2 & w3 & w4 & w5 & A & B & C). exists (n - 6)%nat, w5, w4, w3, w2, w1, w0. split; [lia|]. split; [lra|]. split; [lra|]. intros v L. rewrite S6, !ext_pos by lia.
    destruct (ext_end v (S (S (S (S k)))) ltac:(lia)) as [-> ->]. rewrite mirror. rewrite (dot6 C0 (rev v)), (dot6 C1 (rev v)) by (rewrite ?rev_length; reflexivity || lia).
    rewrite !rev_at by lia. replace (nth (S (S (S k))) v 0) with (nth (length v - 1) v 0) by (f_equal; lia). replace (nth (S (S k)) v 0) with (nth (length v - 2) v 0) by (f_equal; lia). replace (nth (S k) v 0) with (nth (length v - 3) v 0) by (f_equal; lia). replace (nth k v 0) with (nth (length v - 4) v 0) by (f_equal; lia).
    rewrite C. unfold six_at. rewrite <- L. replace (length v - 6 + 1)%nat with (length v - 5)%nat by lia. replace (length v - 6 + 2)%nat with (length v - 4)%nat by lia. replace (length v - 6 + 3)%nat with (length v - 3)%nat by lia. replace (length v - 6 + 4)%nat with (length v - 2)%nat by lia. replace (length v - 6 + 5)%nat with (length v - 1)%nat by lia. ring. }
  destruct (Nat.eq_dec (k + 5) n) as [E|K3].
  { destruct (second_weights (1 - q) Q') as (w0 & w1 & w2 & w3 & w4 & w5 & A & B & C). exists (n - 6)%nat, w5, w4, w3, w2, w1, w0. split; [lia|]. split; [lra|]. split; [lra|]. intros v L. rewrite S6, !ext_pos by lia.
    destruct (ext_end v (S (S (S (S (S k))))) ltac:(lia)) as [-> _]. rewrite mirror. rewrite (dot6 C1 (rev v)) by (rewrite ?rev_length; reflexivity || lia).
    rewrite !rev_at by lia. replace (nth (S (S (S (S k)))) v 0) with (nth (length v - 1) v 0) by (f_equal; lia). replace (nth (S (S (S k))) v 0) with (nth (length v - 2) v 0) by (f_equal; lia). replace (nth (S (S k)) v 0) with (nth (length v - 3) v 0) by (f_equal; lia). replace (nth (S k) v 0) with (nth (length v - 4) v 0) by (f_equal; lia). replace (nth k v 0) with (nth (length v - 5) v 0) by (f_equal; lia).
    rewrite C. unfold six_at. rewrite <- L. replace (length v - 6 + 1)%nat with (length v - 5)%nat by lia. replace (length v - 6 + 2)%nat with (length v - 4)%nat by lia. replace (length v - 6 + 3)%nat with (length v - 3)%nat by lia. replace (length v - 6 + 4)%nat with (length v - 2)%nat by lia. replace (length v - 6 + 5)%nat with (length v - 1)%nat by lia. ring. }
  destruct (inner_weights q Q) as (w0 & w1 & w2 & w3 & w4 & w5 & A & B & C). exists k, w0, w1, w2, w3, w4, w5. split; [lia|]. split; [exact A|]. split; [exact B|]. intros v L. rewrite S6, !ext_pos by lia. rewrite C. unfold six_at.
  replace (k + 1)%nat with (S k) by lia. replace (k + 2)%nat with (S (S k)) by lia. replace (k + 3)%nat with (S (S (S k))) by lia. replace (k + 4)%nat with (S (S (S (S k)))) by lia. replace (k + 5)%nat with (S (S (S (S (S k))))) by lia. reflexivity.
Qed.

Lemma six_abs b w0 w1 w2 w3 w4 w5 v m c : (b + 6 <= length v)%nat -> (forall y, In y v -> Rabs y <= m) -> Rabs w0 + Rabs w1 + Rabs w2 + Rabs w3 + Rabs w4 + Rabs w5 <= c ->
  Rabs (six_at b w0 w1 w2 w3 w4 w5 v) <= c * m.
Proof. intros H A W. unfold six_at. apply six_sum; try exact W; apply A, nth_In; lia. Qed.
Lemma six_sub b w0 w1 w2 w3 w4 w5 v w : length v = length w -> (b + 6 <= length v)%nat ->
  six_at b w0 w1 w2 w3 w4 w5 v - six_at b w0 w1 w2 w3 w4 w5 w = six_at b w0 w1 w2 w3 w4 w5 (map (fun p => fst p - snd p) (combine v w)).
Proof.
  intros L H. assert (N : forall k, nth k (map (fun p => fst p - snd p) (combine v w)) 0 = nth k v 0 - nth k w 0).
  { intro k. replace 0 with ((fun p : R * R => fst p - snd p) (0, 0)) at 1 by (cbn; ring). rewrite (map_nth (fun p : R * R => fst p - snd p)), combine_nth by exact L. reflexivity. }
  unfold six_at. rewrite !N. ring.
Qed.
Section T.
Context {K : XConst}.
(* spectrum [l] interpolated at [x] *)
Definition at_x (dbg : bool) (l : list (R * R)) (sh : spd_shape xr) (x : R) : outcome xr := let! sp := sprague_new (Vspd (FinSamps l) sh) in sprague_evaluate dbg sp (Fin x).
Lemma at_piece l x : strictly l -> (6 <= length l)%nat -> fst (nth 0 l (0, 0)) <= x <= fst (nth (length l - 1) l (0, 0)) ->
  exists k q, (S k < length l)%nat /\ 0 <= q <= 1 /\ forall l' dbg sh, map fst l' = map fst l -> at_x dbg l' sh x = Ret (Fin (P0 (seg (ext (map snd l')) (k + 2)) q)).
Proof.
  intros S H X. assert (EX : exists k, (Datatypes.S k < length l)%nat /\ fst (nth k l (0, 0)) <= x
     /\ (x < fst (nth (Datatypes.S k) l (0, 0)) \/ (Datatypes.S (Datatypes.S k) = length l /\ x = fst (nth (Datatypes.S k) l (0, 0))))).
  { destruct (Rlt_dec x (fst (nth (length l - 1) l (0, 0)))) as [C|C].
    - destruct (find_segment l x) as (k & K1 & K2); [intros ->; cbn in H; lia|lra|exact C|]. exists k. split; [exact K1|]. split; [lra|left; lra].
    - exists (length l - 2)%nat. replace (Datatypes.S (length l - 2)) with (length l - 1)%nat by lia. split; [lia|]. assert (E : x = fst (nth (length l - 1) l (0, 0))) by lra.
      pose proof (strictly_nth l (length l - 2) (length l - 1) S ltac:(lia) ltac:(lia)). split; [lra|]. right. split; [lia|exact E]. }
  destruct EX as (k & K1 & K2 & K3). pose proof (strictly_nth l k (Datatypes.S k) S ltac:(lia) K1) as Lk.
  set (a := fst (nth k l (0, 0))) in *. set (b := fst (nth (Datatypes.S k) l (0, 0))) in *. exists k, ((x - a) / (b - a)). split; [exact K1|]. split.
  { assert (D : 0 < / (b - a)) by (apply Rinv_0_lt_compat; lra). unfold Rdiv. split; [apply Rmult_le_pos; lra|]. rewrite <- (Rinv_r (b - a)) by lra. apply Rmult_le_compat_r; lra. }
  intros l' dbg sh E. assert (L : length l' = length l) by (rewrite <- (map_length fst l'), <- (map_length fst l), E; reflexivity).
  assert (NF : forall j, fst (nth j l' (0, 0)) = fst (nth j l (0, 0))) by (intro j; rewrite <- !(map_nth fst), E; reflexivity).
  unfold at_x. rewrite (exact_value dbg l' sh k x); rewrite ?NF, ?L; try assumption; [reflexivity|]. unfold strictly in *. revert S. clear - E. revert l E. induction l' as [|p l' IH]; intros [|p' l] E S; try discriminate; [constructor|]. injection E as E1 E2.
  inversion S as [|? ? S1 S2]; subst. constructor; [apply (IH l); assumption|]. rewrite Forall_forall in *. intros z Hz. assert (I : In (fst z) (map fst l)) by (rewrite <- E2; apply in_map, Hz). apply in_map_iff in I. destruct I as (z' & Z1 & Z2). rewrite E1, <- Z1. apply S2, Z2.
Qed.
(* changing the samples by at most [d] changes the interpolated value by at most 89/64 of that *)
Theorem C98_perturbation dbg l l' sh sh' x d : strictly l -> map fst l' = map fst l -> (6 <= length l)%nat -> fst (nth 0 l (0, 0)) <= x <= fst (nth (length l - 1) l (0, 0)) ->
  (forall k, (k < length l)%nat -> Rabs (snd (nth k l (0, 0)) - snd (nth k l' (0, 0))) <= d) ->
  exists y y', at_x dbg l sh x = Ret (Fin y) /\ at_x dbg l' sh' x = Ret (Fin y') /\ Rabs (y - y') <= 89 / 64 * d.
Proof.
  intros S E H X D. destruct (at_piece l x S H X) as (k & q & K1 & Q & A). eexists. eexists. split; [apply A; reflexivity|]. split; [apply A, E|].
  assert (L : length l' = length l) by (rewrite <- (map_length fst l'), <- (map_length fst l), E; reflexivity).
  destruct (piece_weights (length l) k q H K1 Q) as (b & w0 & w1 & w2 & w3 & w4 & w5 & B & W & _ & V). rewrite !V by (rewrite map_length; auto). rewrite six_sub by (rewrite !map_length; auto).
  apply six_abs; [rewrite map_length, combine_length, !map_length, L; lia| |exact W]. intros y Hy. apply in_map_iff in Hy. destruct Hy as ([a c] & <- & I). apply (In_nth _ _ (0, 0)) in I. destruct I as (j & J & I).
  rewrite combine_length, !map_length in J. rewrite combine_nth in I by (rewrite !map_length; auto). injection I as <- <-. cbn [fst snd]. change 0 with (snd (0, 0)) at 1 2. rewrite !map_nth. apply D. lia.
Qed.
(* samples between [lo] and [hi]: at most 25/128 of the range beyond *)
Theorem C98_range dbg l sh x lo hi : strictly l -> (6 <= length l)%nat -> fst (nth 0 l (0, 0)) <= x <= fst (nth (length l - 1) l (0, 0)) -> (forall p, In p l -> lo <= snd p <= hi) ->
  exists y, at_x dbg l sh x = Ret (Fin y) /\ lo - 25 / 128 * (hi - lo) <= y <= hi + 25 / 128 * (hi - lo).
Proof.
  intros S H X D. destruct (at_piece l x S H X) as (k & q & K1 & Q & A). eexists. split; [apply A; reflexivity|].
  destruct (piece_weights (length l) k q H K1 Q) as (b & w0 & w1 & w2 & w3 & w4 & w5 & B & W & W1 & V). rewrite V by apply map_length.
  set (m := (lo + hi) / 2). set (c := repeat m (length l)). assert (Cl : length c = length l) by apply repeat_length.
  assert (C : six_at b w0 w1 w2 w3 w4 w5 c = m). { assert (N : forall j, (j < length l)%nat -> nth j c 0 = m) by (intros j Hj; unfold c; rewrite (nth_indep _ 0 m) by (rewrite repeat_length; exact Hj); apply nth_repeat). unfold six_at. rewrite !N by lia. rewrite <- (Rmult_1_l m) at 7. rewrite <- W1. ring. }
  assert (P : Rabs (six_at b w0 w1 w2 w3 w4 w5 (map snd l) - m) <= 89 / 64 * ((hi - lo) / 2)).
  { rewrite <- C at 1. rewrite six_sub by (rewrite map_length; auto). apply six_abs; [rewrite map_length, combine_length, map_length, Cl; lia| |exact W]. intros y Hy. apply in_map_iff in Hy. destruct Hy as ([a e] & <- & I). cbn [fst snd].
    pose proof (in_combine_l _ _ _ _ I) as I1. pose proof (in_combine_r _ _ _ _ I) as I2. apply repeat_spec in I2. subst e. apply in_map_iff in I1. destruct I1 as (p & <- & I1). specialize (D p I1). unfold m. apply Rabs_le. lra. }
  apply Rabs_le_inv in P. unfold m in P. lra.
Qed.
(* both are attained *)
Theorem C98_sharp dbg sh : at_x dbg (even 400 10 [1; 0; 1; 1; 0; 1]) sh 425 = Ret (Fin (153 / 128)) /\ at_x dbg (even 400 10 [0; 1; 0; 0; 1; 0]) sh 425 = Ret (Fin (- (25 / 128))).
Proof.
  assert (E : forall v, length v = 6%nat -> at_x dbg (even 400 10 v) sh 425 = Ret (Fin (P0 (seg (ext v) 4) (1 / 2)))).
  { intros v L. unfold at_x. change (sprague_at dbg 400 10 v sh (Fin 425) = Ret (Fin (P0 (seg (ext v) 4) (1 / 2)))). rewrite sprague_at_in; [|lra|lia|rewrite L; cbn; lra]. unfold piece. rewrite L.
    rewrite (Zfloor_imp 4) by (split; change (4 + 1)%Z with 5%Z; lra). change (Nat.min (Nat.max (Z.to_nat 4) 2) 6) with 4%nat. do 3 f_equal. cbn [INR]. lra. }
  split; rewrite E by reflexivity; do 2 f_equal; unfold seg, ext, seg6; cbn [nth app Nat.sub Nat.add P0]; field.
Qed.
Lemma strictly_even' s h vals : 0 < h -> strictly (even s h vals).
Proof.
  intro Hh. unfold strictly. apply Sorted_StronglySorted; [intros a b c; apply Rlt_trans|]. unfold even, grid. generalize 0%nat. induction vals as [|v vals IH]; intro k; cbn [length seq map combine]; [constructor|].
  constructor; [apply IH|]. destruct vals; cbn [length seq map combine]; constructor. cbn [fst]. rewrite S_INR. lra.
Qed.
(* aligning a spectrum with another grid *)
Theorem C98_align dbg fuel s e h vals iv a b i lo hi : 0 < h -> (6 <= length vals)%nat -> e <= s + INR (length vals - 1) * h -> s <= e -> 0 < i -> Rmax a s <= Rmin b e -> countable a b i ->
  (s <= a \/ on_grid a i s) -> (b <= e \/ on_grid a i e) -> (steps a b i <= fuel)%nat -> (forall v, In v vals -> lo <= v <= hi) ->
  exists r, vspd_align dbg fuel (uspd s e h vals iv) (shape a b i) = Ret r
    /\ forall v, In v (v_values r) -> exists y, v = Fin y /\ lo - 25 / 128 * (hi - lo) <= y <= hi + 25 / 128 * (hi - lo).
Proof.
  intros Hh L E SE Hi AB C Sa Sb F R. assert (E' : e < s + (INR (length vals) + 1) * h). { rewrite minus_INR in E by lia. cbn [INR] in E. lra. }
  rewrite align_uspd; [|repeat (split; [assumption || lia|]); assumption|exact F]. eexists. split; [reflexivity|]. rewrite uspd_vals. intros v I. unfold Fins in I. apply in_map_iff in I. destruct I as (y & <- & I). exists y. split; [reflexivity|].
  unfold resampled in I. apply in_map_iff in I. destruct I as (x & <- & _). unfold av. set (z := Rmax s (Rmin x e)). assert (Z : s <= z <= e) by (unfold z; split; [apply Rmax_l|apply Rmax_lub; [exact SE|apply Rmin_r]]).
  destruct (C98_range dbg (even s h vals) (shape 0 0 0) z lo hi) as (y & Y & B).
  - apply strictly_even', Hh.
  - rewrite even_length. exact L.
  - rewrite even_length, !even_nth by lia. cbn [fst INR]. lra.
  - intros p I. apply R. unfold even in I. destruct p as [p1 p2]. apply in_combine_r in I. exact I.
  - change (sprague_at dbg s h vals (shape 0 0 0) (Fin z) = Ret (Fin y)) in Y. rewrite sv_at in Y by (assumption || lia || lra). injection Y as <-. exact B.
Qed.
Example C98_aligned : exists r, vspd_align true 100 (uspd 400 450 10 [1; 0; 1; 1; 0; 1] (Uniform (Fin 10))) (shape 380 480 5) = Ret r /\ length (v_samples r) = 21%nat
  /\ forall v, In v (v_values r) -> exists y, v = Fin y /\ - (25 / 128) <= y <= 153 / 128.
Proof.
  assert (Z : steps 380 480 5 = 20%nat) by (apply steps_unique; [lra|]; rewrite S_INR, !INR_IZR_INZ; cbn; lra).
  destruct (C98_align true 100 400 450 10 [1; 0; 1; 1; 0; 1] (Uniform (Fin 10)) 380 480 5 0 1) as (r & A & B); try lra.
  - cbn; lia.
  - cbn. lra.
  - rewrite Rmax_right, Rmin_right; lra.
  - unfold countable. lra.
  - right. exists 4%nat. cbn. lra.
  - right. exists 14%nat. cbn. lra.
  - rewrite Z. lia.
  - intros v I. cbn in I. lra.
  - exists r. split; [exact A|]. split.
    + rewrite align_uspd in A; [|unfold alignable; rewrite Rmax_right, Rmin_right by lra; repeat split; try lra; try (cbn; lia); try (cbn; lra); [unfold countable; lra|right; exists 4%nat; cbn; lra|right; exists 14%nat; cbn; lra]|rewrite Z; lia].
      injection A as <-. unfold uspd. cbn [v_samples]. unfold FinSamps. rewrite map_length, even_length, resampled_length, Z. reflexivity.
    + intros v I. destruct (B v I) as (y & -> & Y). exists y. split; [reflexivity|]. lra.
Qed.
End T.

(* in floating point *)
Section F.
Context {K : XConst} (prec emax : Z) {Hp : Prec_gt_0 prec} {He : Prec_lt_emax prec emax} (L : libm (binary_float prec emax)) (lit : QArith_base.Q -> binary_float prec emax).
Notation fl := (binary_float prec emax).
Notation ops := (b_ops prec emax L lit).
Definition range_close : Prop := forall dbg ss sh W M lo hi (x : fl), tame prec emax ss W M -> (6 <= length ss)%nat -> is_finite x = true ->
  (forall s, In s ss -> lo <= B2R (s_v s) <= hi) ->
  B2R (s_nm (nth 0 ss (zs prec emax))) <= B2R x < B2R (s_nm (nth (length ss - 1) ss (zs prec emax))) ->
  exists r, (let! sp := @sprague_new _ ops (Vspd ss sh) in @sprague_evaluate _ ops dbg sp x) = Ret r /\ is_finite r = true
    /\ lo - 25 / 128 * (hi - lo) - 10500 * (bpow radix2 (- prec) * M) <= B2R r <= hi + 25 / 128 * (hi - lo) + 10500 * (bpow radix2 (- prec) * M).
Lemma range_all : sprague_close prec emax L lit -> range_close.
Proof.
  intros C dbg ss sh W M lo hi x T H Fx B X. destruct (C dbg ss sh W M x T H Fx ltac:(apply X) ltac:(left; apply X)) as (r & y & R1 & R2 & Fr & D & _). exists r. split; [exact R1|]. split; [exact Fr|].
  destruct (C98_range dbg (reals prec emax ss) (SpdShape (Fin 0) (Fin 0) Varying) (B2R x) lo hi) as (y' & Y & Z).
  - apply T.
  - unfold reals. rewrite map_length. exact H.
  - rewrite !reals_nth, reals_length. unfold zs in X. cbn [fst]. lra.
  - intros p I. unfold reals in I. apply in_map_iff in I. destruct I as (s & <- & I). apply B, I.
  - unfold at_x in Y. unfold exactly in R2. rewrite Y in R2. injection R2 as <-. apply Rabs_le_inv in D. lra.
Qed.
End F.
Theorem C98_float {K : XConst} : (forall L : libm f32, powi5_ok 24 128 (l_powi L) -> range_close 24 128 L (fun q => f64_to_f32 (b_of_Q 53 1024 q)))
  /\ (forall L : libm f64, powi5_ok 53 1024 (l_powi L) -> range_close 53 1024 L (b_of_Q 53 1024)).
Proof. split; intros L PI; apply range_all; apply C97_sprague; exact PI. Qed.
