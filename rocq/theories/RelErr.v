(* Relative errors over R: products, quotients, sums and powers *)
From Coq Require Import Reals Lra.
From Flocq Require Import Core.
Open Scope R_scope.

(* x is y up to a relative error e *)
Definition rel (e x y : R) : Prop := Rabs (x - y) <= e * y.
Lemma rel_bounds e x y : rel e x y -> (1 - e) * y <= x <= (1 + e) * y.
Proof. intro H. apply Rabs_le_inv in H. lra. Qed.
Lemma rel_intro e x y : (1 - e) * y <= x <= (1 + e) * y -> rel e x y.
Proof. intro H. apply Rabs_le. lra. Qed.
Lemma rel_weaken e f x y : rel e x y -> e <= f -> 0 <= y -> rel f x y.
Proof. intros A H Y. unfold rel in *. eapply Rle_trans; [exact A|]. apply Rmult_le_compat_r; assumption. Qed.
Lemma rel_refl e x : 0 <= e -> 0 <= x -> rel e x x.
Proof. intros. unfold rel. replace (x - x) with 0 by ring. rewrite Rabs_R0. apply Rmult_le_pos; assumption. Qed.
Lemma rel_pos e x y : e < 1 -> 0 < y -> rel e x y -> 0 < x.
Proof. intros E Y H. apply rel_bounds in H. nra. Qed.
Lemma rel_trans e f x y z : rel e x y -> rel f y z -> 0 <= e <= / 100 -> 0 <= f -> 0 <= z -> rel (e + 1.01 * f) x z.
Proof.
  intros A B E F Z. unfold rel in *. replace (x - z) with ((x - y) + (y - z)) by ring. eapply Rle_trans; [apply Rabs_triang|].
  pose proof (rel_bounds _ _ _ B) as [_ C]. assert (e * y <= e * ((1 + f) * z)) by (apply Rmult_le_compat_l; lra). assert (0 <= f * z) by (apply Rmult_le_pos; lra). assert (e * (f * z) <= / 100 * (f * z)) by (apply Rmult_le_compat_r; lra). lra.
Qed.
Lemma rel_mul e f x y v w : rel e x y -> rel f v w -> 0 <= e <= / 100 -> 0 <= f <= / 100 -> 0 <= y -> 0 <= w -> rel (1.01 * (e + f)) (x * v) (y * w).
Proof.
  intros A B E F Y W. apply rel_bounds in A, B. apply rel_intro. assert (YW : 0 <= y * w) by (apply Rmult_le_pos; assumption).
  assert (X0 : 0 <= (1 - e) * y) by (apply Rmult_le_pos; lra). assert (V0 : 0 <= (1 - f) * w) by (apply Rmult_le_pos; lra).
  assert (L : (1 - e) * y * ((1 - f) * w) <= x * v) by (apply Rmult_le_compat; lra). assert (U : x * v <= (1 + e) * y * ((1 + f) * w)) by (apply Rmult_le_compat; lra).
  assert (EF : 0 <= e * f <= / 100 * (e + f)) by nra. nra.
Qed.
Lemma rel_inv f v w : 0 <= f <= / 101 -> 0 < w -> rel f v w -> rel (1.01 * f) (/ v) (/ w).
Proof.
  intros F W A. apply rel_bounds in A. assert (V0 : 0 < (1 - f) * w) by (apply Rmult_lt_0_compat; lra). assert (VP : 0 < v) by lra. assert (WP : 0 < / w) by (apply Rinv_0_lt_compat, W). assert (VI : 0 < / v) by (apply Rinv_0_lt_compat, VP).
  assert (WW : w * / w = 1) by (field; lra). assert (VV : v * / v = 1) by (field; lra).
  apply rel_intro. split.
  - apply (Rmult_le_reg_r v); [exact VP|]. rewrite Rinv_l by lra. assert ((1 - 1.01 * f) * / w * v <= (1 - 1.01 * f) * / w * ((1 + f) * w)) by (apply Rmult_le_compat_l; [apply Rmult_le_pos; lra|lra]).
    replace ((1 - 1.01 * f) * / w * ((1 + f) * w)) with ((1 - 1.01 * f) * (1 + f)) in H by (field; lra). nra.
  - apply (Rmult_le_reg_r v); [exact VP|]. rewrite Rinv_l by lra. assert ((1 + 1.01 * f) * / w * ((1 - f) * w) <= (1 + 1.01 * f) * / w * v) by (apply Rmult_le_compat_l; [apply Rmult_le_pos; lra|lra]).
    replace ((1 + 1.01 * f) * / w * ((1 - f) * w)) with ((1 + 1.01 * f) * (1 - f)) in H by (field; lra). nra.
Qed.
Lemma rel_div e f x y v w : rel e x y -> rel f v w -> 0 <= e <= / 1000 -> 0 <= f <= / 1000 -> 0 <= y -> 0 < w -> rel (1.03 * (e + f)) (x / v) (y / w).
Proof.
  intros A B E F Y W. unfold Rdiv. assert (WI : 0 < / w) by (apply Rinv_0_lt_compat, W). eapply rel_weaken; [apply (rel_mul e (1.01 * f)); try lra; [exact A|apply rel_inv; [lra|exact W|exact B]]|lra|apply Rmult_le_pos; lra].
Qed.
Lemma rel_plus e x y v w : rel e x y -> rel e v w -> rel e (x + v) (y + w).
Proof. intros A B. apply rel_bounds in A, B. apply rel_intro. lra. Qed.

(* ---- powers ---- *)
Lemma exp_upper v : 0 <= v <= / 200 -> exp v <= 1 + 1.01 * v.
Proof.
  intro H. assert (E : exp v * exp (- v) = 1) by (rewrite <- exp_plus, Rplus_opp_r; apply exp_0). pose proof (exp_pos v). pose proof (exp_ineq1_le (- v)).
  assert (exp v * (1 - v) <= 1) by (rewrite <- E; apply Rmult_le_compat_l; lra). nra.
Qed.
Lemma exp_near v : Rabs v <= / 200 -> Rabs (exp v - 1) <= 1.01 * Rabs v.
Proof.
  intro H. destruct (Rle_dec 0 v) as [P|P].
  - rewrite (Rabs_pos_eq v) in * by lra. pose proof (exp_upper v ltac:(lra)). pose proof (exp_ineq1_le v). apply Rabs_le. lra.
  - rewrite (Rabs_left v) in * by lra. pose proof (exp_ineq1_le v). assert (exp v <= 1) by (rewrite <- exp_0; apply Rlt_le, exp_increasing; lra). apply Rabs_le. lra.
Qed.
Lemma ln_near r e : 0 <= e <= / 650 -> 1 - e <= r <= 1 + e -> Rabs (ln r) <= 1.002 * e.
Proof.
  intros E H. assert (P : 0 < r) by lra. apply Rabs_le. split.
  - assert (I : ln r = - ln (/ r)) by (rewrite ln_Rinv by exact P; ring). rewrite I. apply Ropp_le_contravar. pose proof (exp_ineq1_le (ln (/ r))) as X. rewrite exp_ln in X by (apply Rinv_0_lt_compat, P).
    assert (/ r <= / (1 - e)) by (apply Rinv_le; lra). assert (/ (1 - e) <= 1 + 1.002 * e). { apply (Rmult_le_reg_r (1 - e)); [lra|]. rewrite Rinv_l by lra. nra. } lra.
  - pose proof (exp_ineq1_le (ln r)) as X. rewrite exp_ln in X by exact P. lra.
Qed.
Lemma rel_pow e g x y : rel e x y -> 0 <= e <= / 650 -> 0 <= g <= 3 -> 0 < y -> rel (1.02 * (g * e)) (Rpower x g) (Rpower y g).
Proof.
  intros A E G Y. assert (X : 0 < x) by (eapply rel_pos; [|exact Y|exact A]; lra). pose proof (rel_bounds _ _ _ A) as B.
  set (r := x / y). assert (R1 : 1 - e <= r <= 1 + e). { unfold r. split; apply (Rmult_le_reg_r y); try lra; unfold Rdiv; rewrite Rmult_assoc, Rinv_l by lra; lra. }
  assert (XR : x = y * r) by (unfold r; field; lra). pose proof (ln_near r e E R1) as LN. assert (RP : 0 < r) by lra.
  assert (EQ : Rpower x g = Rpower y g * exp (g * ln r)). { rewrite XR. unfold Rpower. rewrite ln_mult by assumption. rewrite Rmult_plus_distr_l, exp_plus. reflexivity. }
  assert (GL : Rabs (g * ln r) <= g * (1.002 * e)) by (rewrite Rabs_mult, (Rabs_pos_eq g) by lra; apply Rmult_le_compat_l; lra).
  assert (GE : 0 <= g * e <= 3 * e) by nra. pose proof (exp_near (g * ln r) ltac:(lra)) as EN. assert (PP : 0 < Rpower y g) by apply exp_pos.
  unfold rel. rewrite EQ. replace (Rpower y g * exp (g * ln r) - Rpower y g) with ((exp (g * ln r) - 1) * Rpower y g) by ring. rewrite Rabs_mult, (Rabs_pos_eq (Rpower y g)) by lra. apply Rmult_le_compat_r; lra.
Qed.
Lemma rel_exponent d m g h y : Rabs (h - g) <= d -> Rabs (ln y) <= m -> 0 <= d * m <= / 200 -> rel (1.01 * (d * m)) (Rpower y h) (Rpower y g).
Proof.
  intros D M S. assert (EQ : Rpower y h = Rpower y g * exp ((h - g) * ln y)). { unfold Rpower. rewrite <- exp_plus. f_equal. ring. }
  assert (A : Rabs ((h - g) * ln y) <= d * m) by (rewrite Rabs_mult; apply Rmult_le_compat; try apply Rabs_pos; assumption).
  pose proof (exp_near _ (Rle_trans _ _ _ A (proj2 S))) as EN. assert (PP : 0 < Rpower y g) by apply exp_pos.
  unfold rel. rewrite EQ. replace (Rpower y g * exp ((h - g) * ln y) - Rpower y g) with ((exp ((h - g) * ln y) - 1) * Rpower y g) by ring. rewrite Rabs_mult, (Rabs_pos_eq (Rpower y g)) by lra. apply Rmult_le_compat_r; lra.
Qed.
(* logarithms of numbers that are not too small *)
Lemma exp1_lower : 2.6 <= exp 1.
Proof.
  assert (E : exp 1 = exp (/ 16) ^ 16). { rewrite <- Rpower_pow by apply exp_pos. unfold Rpower. rewrite ln_exp. f_equal. rewrite INR_IZR_INZ. simpl. lra. }
  rewrite E. apply Rle_trans with ((1 + / 16) ^ 16); [lra|]. apply pow_incr. split; [lra|]. apply exp_ineq1_le.
Qed.
Lemma ln_bound (n : nat) y : / 2.6 ^ n <= y <= 2.6 ^ n -> Rabs (ln y) <= INR n.
Proof.
  intro H. assert (P : 0 < 2.6 ^ n) by (apply pow_lt; lra). assert (Y : 0 < y) by (pose proof (Rinv_0_lt_compat _ P); lra).
  assert (E : 2.6 ^ n <= exp (INR n)). { replace (INR n) with (1 * INR n) by ring. replace (exp (1 * INR n)) with (exp 1 ^ n). - apply pow_incr. split; [lra|apply exp1_lower]. - rewrite <- Rpower_pow by apply exp_pos. unfold Rpower. rewrite ln_exp. f_equal. ring. }
  assert (L : ln (2.6 ^ n) <= INR n). { destruct (Rle_lt_or_eq_dec _ _ E) as [L|L]; [apply Rlt_le; rewrite <- (ln_exp (INR n)); apply ln_increasing; assumption|rewrite L, ln_exp; lra]. }
  assert (mono : forall a b, 0 < a -> a <= b -> ln a <= ln b). { intros a b Ha Hab. destruct (Rle_lt_or_eq_dec _ _ Hab) as [Q|Q]; [apply Rlt_le, ln_increasing; assumption|rewrite Q; lra]. }
  apply Rabs_le. split.
  - pose proof (mono _ _ (Rinv_0_lt_compat _ P) (proj1 H)) as Q. rewrite ln_Rinv in Q by exact P. lra.
  - pose proof (mono _ _ Y (proj2 H)). lra.
Qed.

Lemma exp_neg (n : nat) z : - INR n <= z -> (/ 3) ^ n <= exp z.
Proof.
  intro H. apply Rle_trans with (exp (- INR n)).
  - rewrite exp_Ropp. replace (exp (INR n)) with (exp 1 ^ n).
    + rewrite pow_inv. apply Rinv_le; [apply pow_lt, exp_pos|]. apply pow_incr. split; [apply Rlt_le, exp_pos|apply exp_le_3].
    + rewrite <- Rpower_pow by apply exp_pos. unfold Rpower. rewrite ln_exp. f_equal. ring.
  - destruct (Rle_lt_or_eq_dec _ _ H) as [L|L]; [apply Rlt_le, exp_increasing, L|rewrite L; lra].
Qed.

(* Bernoulli, for exponents between 0 and 1 *)
Lemma bernoulli A p : 0 < A -> 0 <= p <= 1 -> Rpower A p <= 1 + p * (A - 1).
Proof.
  intros HA Hp. set (M := 1 + p * (A - 1)). assert (M0 : 0 < M). { unfold M. destruct (Req_dec p 1) as [->|N]; [lra|]. assert (0 <= p * A) by (apply Rmult_le_pos; lra). lra. }
  assert (LE : forall z, 0 < z -> ln z <= z - 1). { intros z Z. apply Rnot_lt_le. intro C. pose proof (exp_ineq1_le (ln z)) as X. rewrite exp_ln in X by exact Z. lra. }
  assert (IM : 0 < / M) by (apply Rinv_0_lt_compat, M0).
  pose proof (LE (A * / M) ltac:(apply Rmult_lt_0_compat; assumption)) as L1. pose proof (LE (/ M) IM) as L2. rewrite ln_mult in L1 by assumption. rewrite ln_Rinv in L1, L2 by exact M0.
  assert (E : p * (A * / M) + (1 - p) * / M = 1) by (unfold M; field; fold M; lra).
  unfold Rpower. apply Rle_trans with (exp (ln M)); [|rewrite exp_ln by exact M0; apply Rle_refl].
  assert (p * ln A <= ln M). { assert (p * (ln A + - ln M) <= p * (A * / M - 1)) by (apply Rmult_le_compat_l; lra). assert ((1 - p) * - ln M <= (1 - p) * (/ M - 1)) by (apply Rmult_le_compat_l; lra). lra. }
  destruct H as [H|H]; [left; apply exp_increasing, H|rewrite H; apply Rle_refl].
Qed.
Lemma pow_above A p : 1 <= A -> 0 <= p <= 1 -> Rpower A p <= A.
Proof. intros H P. pose proof (bernoulli A p ltac:(lra) P). assert (p * (A - 1) <= 1 * (A - 1)) by (apply Rmult_le_compat_r; lra). lra. Qed.
Lemma pow_below A p : 0 < A <= 1 -> 0 <= p <= 1 -> A <= Rpower A p.
Proof.
  intros [H H1] P. unfold Rpower. rewrite <- (exp_ln A) at 1 by exact H. assert (ln A <= 0). { rewrite <- ln_1. destruct H1 as [H1| ->]; [left; apply ln_increasing; assumption|lra]. }
  assert (ln A <= p * ln A) by (assert ((1 - p) * ln A <= (1 - p) * 0) by (apply Rmult_le_compat_l; lra); lra). destruct H2 as [H2|H2]; [left; apply exp_increasing, H2|rewrite <- H2; apply Rle_refl].
Qed.
