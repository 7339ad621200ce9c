(* C107: how colour differences vary with the colours, exact arithmetic *)
From Coq Require Import Reals ZArith QArith Qreals Lra Lia List Bool.
From Verif Require Import Outcome RealOps MathModel ColorModel LabModel XReal SpecLin TransferProofs LabProofs PropLab PropDe.
Open Scope R_scope.

Section P.
Context {K : XConst}.

Lemma hyp_opp x y : hyp (- x) y = hyp x y.
Proof. unfold hyp. f_equal. ring. Qed.
Lemma hyp_opp2 x y : hyp x (- y) = hyp x y.
Proof. unfold hyp. f_equal. ring. Qed.
Lemma hyp_pos x y : 0 < x -> 0 < hyp x y.
Proof. intro H. apply sqrt_lt_R0. nra. Qed.
Lemma hyp_up x y : 0 <= x -> 0 <= y -> x <= hyp x y <= x + y.
Proof. intros X Y. unfold hyp. split; [rewrite <- (sqrt_square x) at 1 by exact X|rewrite <- (sqrt_square (x + y)) by lra]; apply sqrt_le_1_alt; nra. Qed.
Lemma cosd_180 h : cosd (180 - h) = - cosd h.
Proof. unfold cosd. replace ((180 - h) * PI / 180) with (- (h * PI / 180) + PI) by field. rewrite neg_cos, cos_neg. reflexivity. Qed.
Lemma sind_180 h : sind (180 - h) = sind h.
Proof. unfold sind. replace ((180 - h) * PI / 180) with (- (h * PI / 180) + PI) by field. rewrite neg_sin, sin_neg. ring. Qed.
(* the four hues of a rectangle *)
Lemma rectangle x s : 0 < x -> 0 < s -> exists d, 0 < d < 90 /\ x = hyp x s * cosd d /\ hue s x = d /\ hue s (- x) = 180 - d /\ hue (- s) (- x) = 180 + d /\ hue (- s) x = 360 - d.
Proof.
  intros X S. pose proof (hyp_pos x s X) as H. destruct (hue_dir x s) as [A B]. set (d := hue s x) in *. pose proof (hue_range s x) as Rg. fold d in Rg.
  assert (CP : 0 < cosd d). { apply (Rmult_lt_reg_l (hyp x s)); lra. } assert (SP : 0 < sind d). { apply (Rmult_lt_reg_l (hyp x s)); lra. }
  assert (D : 0 < d < 90).
  { split.
    - destruct (Rle_lt_or_eq_dec _ _ (proj1 Rg)) as [P|P]; [exact P|]. exfalso. rewrite <- P in SP. unfold sind in SP. replace (0 * PI / 180) with 0 in SP by field. rewrite sin_0 in SP. lra.
    - destruct (Rlt_dec d 90) as [L|L]; [exact L|exfalso]. apply Rnot_lt_le in L. destruct (Rlt_dec d 180) as [M|M].
      + assert (Z : 0 <= cosd (180 - d)). { destruct (Req_dec d 90) as [->|N]; [replace (180 - 90) with 90 by lra; rewrite cosd_90; lra|apply Rlt_le, cosd_pos; lra]. } rewrite cosd_180 in Z. lra.
      + apply Rnot_lt_le in M. destruct (Req_dec d 180) as [E|N].
        * rewrite E in SP. replace 180 with (180 - 0) in SP by lra. rewrite sind_180 in SP. unfold sind in SP. replace (0 * PI / 180) with 0 in SP by field. rewrite sin_0 in SP. lra.
        * pose proof (sind_pos (360 - d) ltac:(lra)) as Z. replace (360 - d) with (- d + 360) in Z by ring. rewrite sind_360, sind_neg in Z. lra. }
  exists d. split; [exact D|]. split; [exact A|]. split; [reflexivity|].
  assert (dir : forall b a h, 0 <= h < 360 -> a = hyp x s * cosd h -> b = hyp x s * sind h -> hue b a = h).
  { intros b a h Hh Ha Hb. apply (direction_unique _ _ a b).
    - split; [apply hue_range|]. exists (hyp a b). destruct (hue_dir a b) as [Q1 Q2]. split; [|split; assumption]. destruct (Rle_lt_or_eq_dec _ _ (hyp_nonneg a b)) as [P|P]; [exact P|exfalso]. rewrite <- P in Q1, Q2. pose proof (cs2 h) as Q. rewrite Ha in Q1. rewrite Hb in Q2. nra.
    - split; [exact Hh|]. exists (hyp x s). split; [exact H|]. split; assumption. }
  split; [|split].
  - apply dir; [lra|rewrite cosd_180; lra|rewrite sind_180; lra].
  - apply dir; [lra| |]; replace (180 + d) with (180 - - d) by ring; rewrite ?cosd_180, ?sind_180, ?cosd_neg, ?sind_neg; lra.
  - apply dir; [lra| |]; replace (360 - d) with (- d + 360) by ring; rewrite ?cosd_360, ?sind_360, ?cosd_neg, ?sind_neg; lra.
Qed.
Definition kf (a s : R) : R := 1 + gfac a s (- a) s.
Lemma kf_range a s : 1 <= kf a s <= 1.5.
Proof. unfold kf, gfac. pose proof (hyp_nonneg a s). pose proof (hyp_nonneg (- a) s). pose proof (sat7_bounds ((hyp a s + hyp (- a) s) / 2) ltac:(lra)). lra. Qed.
Lemma one_square x q y z w r : 1 <= q -> 0 <= x -> sqrt ((0 / y) ^ 2 + (0 / z) ^ 2 + (x / q) ^ 2 + r * (0 / w) * (x / q)) = x / q.
Proof.
  intros Q X. assert (P : 0 <= x / q) by (apply Rmult_le_pos; [exact X|left; apply Rinv_0_lt_compat; lra]). rewrite <- (sqrt_square (x / q)) at 3 by exact P. f_equal. unfold Rdiv. ring.
Qed.
Lemma equal_chroma L C dH h : 0 <= C -> 0 <= dH -> ciede2000 L C L C dH h = dH / (1 + 0.015 * C * de_T h).
Proof.
  intros HC HD. pose proof (SH_ge C h HC) as Q. unfold ciede2000. replace ((C + C) / 2) with C by field.
  change (1 - 0.17 * cosd (h - 30) + 0.24 * cosd (2 * h) + 0.32 * cosd (3 * h + 6) - 0.20 * cosd (4 * h - 63)) with (de_T h). set (q := 1 + 0.015 * C * de_T h) in *. rewrite !Rminus_eq_0. apply one_square; assumption.
Qed.
Lemma sqrt_opp y z w r x q : sqrt ((0 / y) ^ 2 + (0 / z) ^ 2 + (x / q) ^ 2 + r * (0 / w) * (x / q)) = sqrt ((0 / y) ^ 2 + (0 / z) ^ 2 + (- x / q) ^ 2 + r * (0 / w) * (- x / q)).
Proof. f_equal. unfold Rdiv. ring. Qed.
Lemma equal_chroma_neg L C dH h : 0 <= C -> dH <= 0 -> ciede2000 L C L C dH h = - dH / (1 + 0.015 * C * de_T h).
Proof. intros HC HD. rewrite <- (equal_chroma L C (- dH) h HC) by lra. unfold ciede2000. rewrite !Rminus_eq_0. apply sqrt_opp. Qed.
(* opposite in a, equal in b: the value on either side of the grey axis *)
Lemma above L a s : 0 < a -> 0 < s -> de2000 (L, a, s) (L, - a, s) = 2 * (kf a s * a) / (1 + 0.015 * hyp (kf a s * a) s * de_T 90).
Proof.
  intros A S. rewrite de_form. fold (kf a s). set (k := kf a s). assert (X : 0 < k * a) by (unfold k; pose proof (kf_range a s); nra). replace (k * - a) with (- (k * a)) by ring. set (x := k * a) in *.
  rewrite hyp_opp. set (C := hyp x s). destruct (rectangle x s X S) as (d & D & E & -> & -> & _). fold C in E. assert (CP : 0 < C) by (apply hyp_pos, X). assert (CC : C * C <> 0) by nra.
  replace (hue_mean (C * C) d (180 - d)) with 90. 2: { unfold hue_mean. destruct (Req_EM_T _ _) as [Z|_]; [contradiction|]. destruct (Rle_dec _ _) as [_|N]; [field|exfalso; apply N, Rabs_le; lra]. }
  replace (hue_diff (C * C) d (180 - d)) with (180 - 2 * d). 2: { unfold hue_diff. destruct (Req_EM_T _ _) as [Z|_]; [contradiction|]. destruct (Rle_dec _ _) as [_|N]; [ring|exfalso; apply N, Rabs_le; lra]. }
  rewrite sqrt_square by lra. replace (sind ((180 - 2 * d) / 2)) with (cosd d) by (replace ((180 - 2 * d) / 2) with (90 + - d) by field; rewrite sind_plus, cosd_90, sind_90, cosd_neg; ring). rewrite Rmult_assoc, <- E.
  apply equal_chroma; lra.
Qed.
Lemma below L a s : 0 < a -> 0 < s -> de2000 (L, a, - s) (L, - a, - s) = 2 * (kf a s * a) / (1 + 0.015 * hyp (kf a s * a) s * de_T 270).
Proof.
  intros A S. rewrite de_form. replace (1 + gfac a (- s) (- a) (- s)) with (kf a s) by (unfold kf, gfac; rewrite !hyp_opp2; reflexivity). set (k := kf a s). assert (X : 0 < k * a) by (unfold k; pose proof (kf_range a s); nra). replace (k * - a) with (- (k * a)) by ring. set (x := k * a) in *.
  rewrite hyp_opp, hyp_opp2. set (C := hyp x s). destruct (rectangle x s X S) as (d & D & E & _ & _ & -> & ->). fold C in E. assert (CP : 0 < C) by (apply hyp_pos, X). assert (CC : C * C <> 0) by nra.
  replace (hue_mean (C * C) (360 - d) (180 + d)) with 270. 2: { unfold hue_mean. destruct (Req_EM_T _ _) as [Z|_]; [contradiction|]. destruct (Rle_dec _ _) as [_|N]; [field|exfalso; apply N, Rabs_le; lra]. }
  replace (hue_diff (C * C) (360 - d) (180 + d)) with (2 * d - 180). 2: { unfold hue_diff. destruct (Req_EM_T _ _) as [Z|_]; [contradiction|]. destruct (Rle_dec _ _) as [_|N]; [ring|exfalso; apply N, Rabs_le; lra]. }
  rewrite sqrt_square by lra. replace (sind ((2 * d - 180) / 2)) with (- cosd d) by (replace ((2 * d - 180) / 2) with (- (90 + - d)) by field; rewrite sind_neg, sind_plus, cosd_90, sind_90, cosd_neg; ring). replace (2 * C * - cosd d) with (- (2 * (C * cosd d))) by ring. rewrite <- E.
  rewrite equal_chroma_neg by lra. rewrite Ropp_involutive. reflexivity.
Qed.
Lemma T_up h : de_T h <= 2.
Proof. unfold de_T. pose proof (COS_bound ((h - 30) * PI / 180)). pose proof (COS_bound (2 * h * PI / 180)). pose proof (COS_bound ((3 * h + 6) * PI / 180)). pose proof (COS_bound ((4 * h - 63) * PI / 180)). lra. Qed.
Lemma pi_up : PI <= 3.2.
Proof. pose proof (PI_2_3_7_ineq 1) as [_ U]. cbn [sum_f_R0 Nat.mul Nat.add] in U. unfold tg_alt, PI_2_3_7_tg, Ratan_seq in U. cbn [Nat.mul Nat.add pow] in U. rewrite !S_INR in U. change (INR 0) with 0 in U. lra. Qed.
(* T is larger by a tenth around 270 degrees than around 90 *)
Lemma T_gap : 0.1 <= de_T 270 - de_T 90.
Proof.
  assert (S6 : sind 6 <= 0.107). { unfold sind. pose proof PI_RGT_0. pose proof pi_up. pose proof (sin_lt_x (6 * PI / 180) ltac:(lra)). lra. }
  assert (C60 : cosd 60 = 1 / 2). { unfold cosd. replace (60 * PI / 180) with (PI / 3) by field. apply cos_PI3. }
  assert (C96 : cosd 96 = - sind 6) by (replace 96 with (90 + 6) by lra; rewrite cosd_plus, cosd_90, sind_90; ring).
  assert (A : de_T 90 = 1 - 0.17 * cosd 60 + 0.24 * cosd 180 + 0.32 * - cosd 96 - 0.20 * cosd 297).
  { change (de_T 90) with (1 - 0.17 * cosd (90 - 30) + 0.24 * cosd (2 * 90) + 0.32 * cosd (3 * 90 + 6) - 0.20 * cosd (4 * 90 - 63)). replace (90 - 30) with 60 by lra. replace (2 * 90) with 180 by lra. replace (3 * 90 + 6) with ((180 - - (96)) ) by lra. rewrite cosd_180, cosd_neg. replace (4 * 90 - 63) with 297 by lra. reflexivity. }
  assert (B : de_T 270 = 1 - 0.17 * - cosd 60 + 0.24 * cosd 180 + 0.32 * cosd 96 - 0.20 * cosd 297).
  { change (de_T 270) with (1 - 0.17 * cosd (270 - 30) + 0.24 * cosd (2 * 270) + 0.32 * cosd (3 * 270 + 6) - 0.20 * cosd (4 * 270 - 63)). replace (270 - 30) with (180 - - (60)) by lra. rewrite cosd_180, cosd_neg. replace (2 * 270) with (180 + 360) by lra. rewrite cosd_360. replace (3 * 270 + 6) with (96 + 360 + 360) by lra. rewrite !cosd_360. replace (4 * 270 - 63) with (297 + 360 + 360) by lra. rewrite !cosd_360. reflexivity. }
  rewrite A, B, C96, C60. lra.
Qed.
(* CIE 1976: moving both colours changes the difference by at most the two moves *)
Theorem C107_steady_1976 : forall c d c' d' : vec, exists e e' m n : R,
  delta_E_1976 (FinLab c) (FinLab d) = Fin e /\ delta_E_1976 (FinLab c') (FinLab d') = Fin e'
  /\ delta_E_1976 (FinLab c) (FinLab c') = Fin m /\ delta_E_1976 (FinLab d) (FinLab d') = Fin n
  /\ Rabs (e - e') <= m + n.
Proof.
  intros c d c' d'. destruct (C39_delta76_metric c d c') as (cd & w1 & cc & c'd & E1 & _ & E2 & E3 & _ & _ & _ & T1). destruct (C39_delta76_metric c' d d') as (x & w2 & c'd' & d'd & F1 & _ & F2 & F3 & _ & _ & _ & T2).
  destruct (C39_delta76_metric c' d' c) as (y & w3 & c'c & cd' & G1 & _ & G2 & G3 & _ & _ & _ & T3). destruct (C39_delta76_metric c d' d) as (z & w4 & z2 & dd' & H1 & _ & H2 & H3 & _ & _ & _ & T4).
  destruct (C39_delta76_metric c c' c) as (p & q & _ & _ & P1 & P2 & _ & _ & _ & P3 & _). destruct (C39_delta76_metric d d' d) as (r & s & _ & _ & R1 & R2 & _ & _ & _ & R3 & _).
  repeat match goal with A : ?t = Fin ?u, B : ?t = Fin ?v |- _ => rewrite A in B; injection B as <- end.
  exists cd, c'd', cc, dd'. repeat (split; [assumption|]). subst. apply Rabs_le. lra.
Qed.
(* CIEDE2000: vanishes continuously *)
Theorem C107_small_2000 : forall c d e : vec, exists cd ce ed : R,
  delta_E_2000 (FinLab c) (FinLab d) = Fin cd /\ delta_E_1976 (FinLab c) (FinLab e) = Fin ce /\ delta_E_1976 (FinLab e) (FinLab d) = Fin ed
  /\ 0 <= cd <= sqrt 4.5 * (ce + ed).
Proof.
  intros c d e. destruct (C84_bounded_by_1976 c d) as (x & y & E & F & B). destruct (C39_delta76_metric c d e) as (cd & w1 & ce & ed & E1 & _ & E2 & E3 & _ & _ & _ & T).
  rewrite F in E1. injection E1 as <-. exists x, ce, ed. repeat (split; [assumption|]). split.
  - rewrite delta_E_2000_fin in E. injection E as <-. destruct c as [[? ?] ?], d as [[? ?] ?]. apply sqrt_pos.
  - pose proof (sqrt_pos 4.5). nra.
Qed.
(* but jumps where the hues are opposite: on the two sides of (L, a, 0), (L, -a, 0), however close, the values differ by a fixed amount *)
Definition step (a : R) : R := 0.003 * (a * a) / ((1.03 + 0.045 * a) * (1.03 + 0.045 * a)).
Lemma quotients x q1 q2 m n y : 1 <= q1 <= m -> 1 <= q2 <= m -> 0 <= n -> n <= x * (q2 - q1) -> y = m * m -> n / y <= x / q1 - x / q2.
Proof.
  intros Q1 Q2 N H ->. replace (x / q1 - x / q2) with (x * (q2 - q1) / (q1 * q2)) by (field; lra). apply Rle_trans with (n / (q1 * q2)).
  - apply Rmult_le_compat_l; [exact N|]. apply Rinv_le_contravar; nra.
  - apply Rmult_le_compat_r; [|exact H]. left. apply Rinv_0_lt_compat. nra.
Qed.
Lemma between a t : 0 < a -> 0 < t <= 1 -> forall L, step a <= de2000 (L, a, t) (L, - a, t) - de2000 (L, a, - t) (L, - a, - t).
Proof.
  intros A S L. rewrite above, below by lra. pose proof (kf_range a t) as K0. set (k := kf a t) in *. set (x := k * a). assert (X : a <= x <= 1.5 * a) by (unfold x; nra). destruct (hyp_up x t ltac:(lra) ltac:(lra)) as [C1 C2]. set (C := hyp x t) in *. clearbody C. clearbody x. clear k K0.
  pose proof T_gap as G. pose proof (de_T_pos 90) as P1. pose proof (de_T_pos 270) as P2. pose proof (T_up 270) as U2. pose proof (T_up 90) as U1. set (T1 := de_T 90) in *. set (T2 := de_T 270) in *. clearbody T1 T2.
  assert (B1 : 0 <= C * T1 <= C * 2) by (split; [apply Rmult_le_pos; lra|apply Rmult_le_compat_l; lra]). assert (B2 : 0 <= C * T2 <= C * 2) by (split; [apply Rmult_le_pos; lra|apply Rmult_le_compat_l; lra]).
  unfold step. apply (quotients (2 * x) _ _ (1.03 + 0.045 * a)); try reflexivity; try lra.
  - pose proof (Rmult_le_pos a a ltac:(lra) ltac:(lra)). lra.
  - assert (D : a * (a * 0.1) <= x * (C * (T2 - T1))). { apply Rmult_le_compat; try lra. apply Rmult_le_compat; lra. } nra.
Qed.
Theorem C107_jump_2000 : forall L a eps : R, 0 < a -> 0 < eps -> exists (c d c' d' : vec) (e e' m n : R),
  delta_E_2000 (FinLab c) (FinLab d) = Fin e /\ delta_E_2000 (FinLab c') (FinLab d') = Fin e'
  /\ delta_E_1976 (FinLab c) (FinLab c') = Fin m /\ delta_E_1976 (FinLab d) (FinLab d') = Fin n /\ m <= eps /\ n <= eps
  /\ delta_E_1976 (FinLab c) (FinLab (L, a, 0)) = Fin (m / 2) /\ delta_E_1976 (FinLab d) (FinLab (L, - a, 0)) = Fin (n / 2)
  /\ 0.003 * (a * a) / ((1.03 + 0.045 * a) * (1.03 + 0.045 * a)) <= e - e'.
Proof.
  intros L a eps A E. set (t := Rmin 1 (eps / 2)). assert (S : 0 < t <= 1 /\ 2 * t <= eps). { unfold t. pose proof (Rmin_l 1 (eps / 2)). pose proof (Rmin_r 1 (eps / 2)). pose proof (Rmin_pos 1 (eps / 2) ltac:(lra) ltac:(lra)). lra. } clearbody t.
  assert (N : forall x y, 0 <= y -> norm3 (x - x) (a - a) y = y /\ norm3 (x - x) (- a - - a) y = y). { intros x y Y. unfold norm3. rewrite !Rminus_eq_0. replace (0 ^ 2 + 0 ^ 2 + y ^ 2) with (y * y) by ring. rewrite sqrt_square by exact Y. split; reflexivity. }
  exists (L, a, t), (L, - a, t), (L, a, - t), (L, - a, - t). rewrite !delta_E_2000_fin, !delta76_fin. do 4 eexists. do 4 (split; [reflexivity|]).
  destruct (N L (t - - t) ltac:(lra)) as [-> ->]. destruct (N L (t - 0) ltac:(lra)) as [-> ->]. split; [lra|]. split; [lra|]. split; [f_equal; field|]. split; [f_equal; field|]. apply between; lra.
Qed.
(* at a = 50 the step is more than 0.69 *)
Example C107_example : forall eps : R, 0 < eps -> exists (c d c' d' : vec) (e e' m n : R),
  delta_E_2000 (FinLab c) (FinLab d) = Fin e /\ delta_E_2000 (FinLab c') (FinLab d') = Fin e'
  /\ delta_E_1976 (FinLab c) (FinLab c') = Fin m /\ delta_E_1976 (FinLab d) (FinLab d') = Fin n /\ m <= eps /\ n <= eps /\ 0.69 <= e - e'.
Proof.
  intros eps P. destruct (C107_jump_2000 50 50 eps ltac:(lra) P) as (c & d & c' & d' & e & e' & m & n & H1 & H2 & H3 & H4 & H5 & H6 & _ & _ & H). exists c, d, c', d', e, e', m, n. repeat (split; [assumption|]). eapply Rle_trans; [|exact H]. lra.
Qed.
End P.
