(* Bounds of exp and ln by truncated series, in integers *)
From Coq Require Import Reals ZArith QArith Qreals Lra Lia Bool.
From Flocq Require Import Core.
Open Scope R_scope.

(* ---- the series of exp ---- *)
Definition ft (s : R) (i : nat) : R := / INR (fact i) * s ^ i.
Lemma ft_pos s i : 0 <= s -> 0 <= ft s i.
Proof. intro H. apply Rmult_le_pos; [left; apply Rinv_0_lt_compat, INR_fact_lt_0|apply pow_le, H]. Qed.
Lemma exp_cv s : Un_cv (fun n => sum_f_R0 (ft s) n) (exp s).
Proof. unfold exp. destruct (exist_exp s) as [l E]. exact E. Qed.
Lemma exp_lower s n : 0 <= s -> sum_f_R0 (ft s) n <= exp s.
Proof. intro H. apply (sum_incr (ft s) n _ (exp_cv s)). intro i. apply ft_pos, H. Qed.
Lemma fact_plus a b : (fact a * fact b <= fact (a + b))%nat.
Proof. induction b as [|b IH]; [rewrite Nat.add_0_r; cbn [fact]; lia|]. rewrite Nat.add_succ_r. cbn [fact]. nia. Qed.
Lemma ft_plus s a b : 0 <= s -> ft s (a + b) <= ft s a * ft s b.
Proof.
  intro H. unfold ft. rewrite pow_add. replace (/ INR (fact a) * s ^ a * (/ INR (fact b) * s ^ b)) with (/ (INR (fact a) * INR (fact b)) * (s ^ a * s ^ b)) by (field; split; apply INR_fact_neq_0).
  apply Rmult_le_compat_r; [apply Rmult_le_pos; apply pow_le, H|]. apply Rinv_le_contravar; [apply Rmult_lt_0_compat; apply INR_fact_lt_0|]. rewrite <- mult_INR. apply le_INR, fact_plus.
Qed.
Lemma sum_mono f g n : (forall i, f i <= g i) -> sum_f_R0 f n <= sum_f_R0 g n.
Proof. intro H. induction n as [|n IH]; cbn [sum_f_R0]; [apply H|]. specialize (H (S n)). lra. Qed.
Lemma exp_upper s m : 0 <= s -> exp s <= sum_f_R0 (ft s) m + ft s (S m) * exp s.
Proof.
  intro H. apply Rnot_lt_le. intro L. destruct (exp_cv s (exp s - (sum_f_R0 (ft s) m + ft s (S m) * exp s)) ltac:(lra)) as [N C]. specialize (C (S m + N)%nat ltac:(lia)). unfold R_dist in C. apply Rabs_def2 in C.
  rewrite (tech2 (ft s) m (S m + N) ltac:(lia)) in C. replace (S m + N - S m)%nat with N in C by lia.
  assert (B : sum_f_R0 (fun i => ft s (S m + i)) N <= ft s (S m) * exp s).
  { apply Rle_trans with (sum_f_R0 (fun i => ft s i * ft s (S m)) N); [apply sum_mono; intro i; rewrite Rmult_comm; apply ft_plus, H|]. rewrite <- scal_sum. apply Rmult_le_compat_l; [apply ft_pos, H|apply exp_lower, H]. }
  lra.
Qed.
(* Horner's scheme *)
Fixpoint hr (s : R) (j : nat) (m : nat) : R := match m with 0%nat => 1 | S m => 1 + s / INR j * hr s (S j) m end.
Lemma hr_sum s m : forall j, ft s j * hr s (S j) m = sum_f_R0 (fun i => ft s (j + i)) m.
Proof.
  induction m as [|m IH]; intro j; [cbn [hr sum_f_R0]; rewrite Nat.add_0_r; ring|].
  rewrite decomp_sum by lia. cbn [Init.Nat.pred]. rewrite Nat.add_0_r. cbn [hr]. rewrite Rmult_plus_distr_l, Rmult_1_r. f_equal. transitivity (ft s (S j) * hr s (S (S j)) m).
  - unfold ft. change (fact (S j)) with (S j * fact j)%nat. rewrite mult_INR. cbn [pow]. field. split; [apply INR_fact_neq_0|apply not_0_INR; lia].
  - rewrite IH. apply sum_eq. intros i _. f_equal. lia.
Qed.
Lemma hr_exp s m : 0 <= s -> hr s 1 m <= exp s <= hr s 1 m + ft s (S m) * exp s.
Proof. intro H. pose proof (hr_sum s m 0) as E. unfold ft at 1 in E. cbn [fact pow] in E. replace (/ INR 1 * 1 * hr s 1 m) with (hr s 1 m) in E by (cbn [INR]; field). rewrite E. split; [apply exp_lower, H|apply exp_upper, H]. Qed.

(* ---- in fixed point ---- *)
Definition one : Z := (2 ^ 64)%Z.
Definition fx (k : Z) : R := IZR k / IZR one.
Fixpoint hz (k : Z) (j : nat) (m : nat) : Z := match m with 0%nat => one | S m => (one + k * hz k (S j) m / (Z.of_nat j * one))%Z end.
Lemma one_pos : 0 < IZR one. Proof. apply IZR_lt. reflexivity. Qed.
Lemma hz_ok k : (0 <= k <= one)%Z -> forall m j, (1 <= j)%nat -> (0 <= hz k j m)%Z /\ hr (fx k) j m - IZR (Z.of_nat m) / IZR one <= fx (hz k j m) <= hr (fx k) j m.
Proof.
  intro H. pose proof one_pos as P. assert (F : 0 <= fx k <= 1). { unfold fx. destruct H as [H1 H2]. apply IZR_le in H1, H2. split; [apply Rmult_le_pos; [exact H1|left; apply Rinv_0_lt_compat, P]|]. apply (Rmult_le_reg_r (IZR one)); [exact P|]. unfold Rdiv. rewrite Rmult_assoc, Rinv_l by lra. lra. }
  induction m as [|m IH]; intros j J.
  - split; [discriminate|]. cbn [hz hr]. change (IZR (Z.of_nat 0)) with 0. unfold fx. replace (IZR one / IZR one) with 1 by (field; lra). lra.
  - destruct (IH (S j) ltac:(lia)) as [Z0 [A B]]. set (x := hz k (S j) m) in *. cbn [hz hr]. fold x. assert (J0 : 0 < INR j) by (apply lt_0_INR; lia). assert (J1 : 1 <= INR j) by (apply (le_INR 1); lia). set (d := (Z.of_nat j * one)%Z). assert (D : (0 < d)%Z) by (unfold d, one; lia).
    assert (DR : IZR d = INR j * IZR one) by (unfold d; rewrite mult_IZR, <- INR_IZR_INZ; reflexivity).
    pose proof (Z.mul_div_le (k * x) d D) as Q1. pose proof (Z.mul_succ_div_gt (k * x) d D) as Q2. set (q := (k * x / d)%Z) in *. assert (Q0 : (0 <= q)%Z) by (apply Z.div_pos; [apply Z.mul_nonneg_nonneg; lia|exact D]).
    split; [assert (0 < one)%Z by reflexivity; lia|]. apply IZR_le in Q1. apply IZR_lt in Q2. rewrite !mult_IZR in Q1, Q2. rewrite succ_IZR in Q2. rewrite DR in Q1, Q2.
    assert (V : fx (one + q) = 1 + fx q) by (unfold fx; rewrite plus_IZR; field; lra). rewrite V. assert (KX : IZR k * IZR x = fx k * fx x * (IZR one * IZR one)) by (unfold fx; field; lra). assert (QX : IZR q = fx q * IZR one) by (unfold fx; field; lra). rewrite KX in Q1, Q2. rewrite QX in Q1, Q2.
    assert (R1 : INR j * fx q <= fx k * fx x). { apply (Rmult_le_reg_r (IZR one * IZR one)); [apply Rmult_lt_0_compat; exact P|]. lra. }
    assert (R2 : fx k * fx x <= INR j * (fx q + / IZR one)). { apply (Rmult_le_reg_r (IZR one * IZR one)); [apply Rmult_lt_0_compat; exact P|]. left. eapply Rlt_le_trans; [exact Q2|]. right. field. lra. }
    rewrite Nat2Z.inj_succ, succ_IZR. set (t := hr (fx k) (S j) m) in *. set (g := fx k / INR j * t). assert (G : INR j * g = fx k * t) by (unfold g; field; lra).
    assert (MM : 0 <= IZR (Z.of_nat m) / IZR one) by (apply Rmult_le_pos; [apply IZR_le; lia|left; apply Rinv_0_lt_compat, P]). set (mm := IZR (Z.of_nat m) / IZR one) in *. replace ((IZR (Z.of_nat m) + 1) / IZR one) with (mm + / IZR one) by (unfold mm; field; lra).
    assert (U : fx k * fx x <= fx k * t) by (apply Rmult_le_compat_l; lra). assert (W : fx k * (t - mm) <= fx k * fx x) by (apply Rmult_le_compat_l; lra).
    split.
    + assert (I : INR j * g <= INR j * (fx q + mm + / IZR one)); [|apply Rmult_le_reg_l in I; lra]. assert (fx k * mm <= 1 * mm) by (apply Rmult_le_compat_r; lra). assert (1 * mm <= INR j * mm) by (apply Rmult_le_compat_r; lra). lra.
    + assert (I : INR j * fx q <= INR j * g) by lra. apply Rmult_le_reg_l in I; lra.
Qed.
Lemma fact_S n : INR (fact (S n)) = IZR (Z.of_nat (S n)) * INR (fact n).
Proof. change (fact (S n)) with (S n * fact n)%nat. rewrite mult_INR, <- INR_IZR_INZ. reflexivity. Qed.
Lemma exp1 s : 0 <= s <= 1 -> 0 <= ft s 19 <= / 100000000000000000.
Proof.
  intro H. split; [apply ft_pos, H|]. unfold ft. assert (s ^ 19 <= 1) by (rewrite <- (pow1 19); apply pow_incr, H). assert (0 <= s ^ 19) by (apply pow_le; lra).
  assert (F : INR (fact 19) = 121645100408832000) by (rewrite !fact_S; cbn [Z.of_nat Pos.of_succ_nat Pos.succ fact INR]; lra). rewrite F. lra.
Qed.
Lemma exp_le3 s : 0 <= s <= 1 -> exp s <= 3.
Proof. intro H. apply Rle_trans with (exp 1); [|apply exp_le_3]. destruct (Rle_lt_or_eq_dec s 1 (proj2 H)) as [L| ->]; [left; apply exp_increasing, L|lra]. Qed.
(* exp s from the integer s * 2^64 *)
Definition expz (k : Z) : Z := hz k 1 18.
Lemma expz_ok k : (0 <= k <= one)%Z -> Rabs (exp (fx k) - fx (expz k)) <= 4e-17.
Proof.
  intro H. pose proof one_pos as P. destruct (hz_ok k H 18 1 ltac:(lia)) as [_ [A B]]. fold (expz k) in A, B.
  assert (F : 0 <= fx k <= 1). { unfold fx. destruct H as [H1 H2]. apply IZR_le in H1, H2. split; [apply Rmult_le_pos; [exact H1|left; apply Rinv_0_lt_compat, P]|]. apply (Rmult_le_reg_r (IZR one)); [exact P|]. unfold Rdiv. rewrite Rmult_assoc, Rinv_l by lra. lra. }
  destruct (hr_exp (fx k) 18 ltac:(lra)) as [C D]. pose proof (exp1 _ F) as E. pose proof (exp_le3 _ F) as G. pose proof (exp_pos (fx k)) as X. change (IZR (Z.of_nat 18) / IZR one) with (18 / 18446744073709551616) in A.
  assert (ft (fx k) 19 * exp (fx k) <= / 100000000000000000 * 3) by (apply Rmult_le_compat; lra). apply Rabs_le. lra.
Qed.
Lemma ln_gap a b : 1 <= a -> 1 <= b -> Rabs (ln a - ln b) <= Rabs (a - b).
Proof.
  assert (W : forall x y, 1 <= x -> x <= y -> ln y - ln x <= y - x).
  { intros x y X Y. replace (ln y - ln x) with (ln (y / x)) by (unfold Rdiv; rewrite ln_mult, ln_Rinv; [ring|lra|lra|apply Rinv_0_lt_compat; lra]).
    assert (Q : 0 < y / x) by (apply Rdiv_lt_0_compat; lra). pose proof (exp_ineq1_le (ln (y / x))) as I. rewrite exp_ln in I by exact Q. apply Rle_trans with (y / x - 1); [lra|]. replace (y / x - 1) with ((y - x) / x) by (field; lra).
    apply (Rmult_le_reg_r x); [lra|]. unfold Rdiv. rewrite Rmult_assoc, Rinv_l by lra. nra. }
  intros A B. destruct (Rle_dec a b) as [L|L].
  - rewrite (Rabs_minus_sym (ln a)), (Rabs_minus_sym a). assert (ln a <= ln b) by (destruct (Rle_lt_or_eq_dec a b L) as [M| ->]; [left; apply ln_increasing; lra|lra]). rewrite !Rabs_pos_eq by lra. apply W; lra.
  - apply Rnot_le_lt in L. assert (ln b < ln a) by (apply ln_increasing; lra). rewrite !Rabs_pos_eq by lra. apply W; lra.
Qed.
(* k / 2^64 is the logarithm of the rational w to tol + 4e-17 *)
Definition ln_check (tol : Z) (w : Q) (k : Z) : bool :=
  ((0 <=? k)%Z && (k <=? one)%Z && (Zpos (Qden w) <=? Qnum w)%Z && (Z.abs (expz k * Zpos (Qden w) - Qnum w * one) <=? tol * Zpos (Qden w))%Z)%bool.
Lemma ln_check_ok tol w k : ln_check tol w k = true -> 1 <= Q2R w /\ Rabs (ln (Q2R w) - fx k) <= fx tol + 4e-17.
Proof.
  unfold ln_check. rewrite !andb_true_iff, !Z.leb_le. intros (((K0 & K1) & W) & T). pose proof one_pos as P. assert (D : 0 < IZR (Zpos (Qden w))) by (apply IZR_lt; reflexivity).
  assert (W1 : 1 <= Q2R w). { unfold Q2R. apply (Rmult_le_reg_r (IZR (Zpos (Qden w)))); [exact D|]. rewrite Rmult_assoc, Rinv_l by lra. apply IZR_le in W. lra. }
  split; [exact W1|]. pose proof (expz_ok k (conj K0 K1)) as E. assert (F : Rabs (fx (expz k) - Q2R w) <= fx tol).
  { apply IZR_le in T. rewrite abs_IZR, minus_IZR, !mult_IZR in T. unfold fx, Q2R. replace (IZR (expz k) / IZR one - IZR (Qnum w) * / IZR (Zpos (Qden w))) with ((IZR (expz k) * IZR (Zpos (Qden w)) - IZR (Qnum w) * IZR one) / (IZR one * IZR (Zpos (Qden w)))) by (field; lra).
    assert (OD : 0 < IZR one * IZR (Zpos (Qden w))) by (apply Rmult_lt_0_compat; assumption). unfold Rdiv at 1. rewrite Rabs_mult, (Rabs_pos_eq (/ _)) by (left; apply Rinv_0_lt_compat, OD). apply (Rmult_le_reg_r (IZR one * IZR (Zpos (Qden w)))); [exact OD|]. rewrite Rmult_assoc, Rinv_l by lra. unfold Rdiv. replace (IZR tol * / IZR one * (IZR one * IZR (Zpos (Qden w)))) with (IZR tol * IZR (Zpos (Qden w))) by (field; lra). lra. }
  assert (X : 1 <= exp (fx k)). { rewrite <- exp_0. assert (0 <= fx k) by (unfold fx; apply Rmult_le_pos; [apply IZR_le, K0|left; apply Rinv_0_lt_compat, P]). destruct (Rle_lt_or_eq_dec _ _ H) as [L| <-]; [left; apply exp_increasing, L|lra]. }
  pose proof (ln_gap (Q2R w) (exp (fx k)) W1 X) as G. rewrite ln_exp in G. apply Rabs_le_inv in E, F. apply Rle_trans with (1 := G). apply Rabs_le. lra.
Qed.
