(* A two-piece transfer curve and its inverse in floating point, for a powf of bounded relative error *)
From Coq Require Import Reals ZArith QArith Qreals Lra Lia Bool.
From Flocq Require Import Core BinarySingleNaN Relative.
From Verif Require Import RealOps XReal FloatInst FloatProofs ErrProofs RelErr.
Open Scope R_scope.

Lemma rpower_1 z : Rpower 1 z = 1.
Proof. unfold Rpower. rewrite ln_1, Rmult_0_r. apply exp_0. Qed.

Section C.
Context (prec emax : Z) {Hp : Prec_gt_0 prec} {He : Prec_lt_emax prec emax}.
Notation fl := (binary_float prec emax).
Notation u := (bpow radix2 (- prec)).
Notation eta := (bpow radix2 (2 - emax - prec)).
Notation tiny := (bpow radix2 (2 - emax)).
Notation rnd := (round radix2 (SpecFloat.fexp prec emax) ZnearestE).
Context (P5 : (24 <= prec)%Z) (E5 : (128 <= emax)%Z).

(* positive finite operands and a result away from underflow and overflow: relative error u *)
Lemma rnd_rel x : tiny <= x -> rel u (rnd x) x.
Proof.
  intro H. assert (X : 0 < x) by (pose proof (bpow_gt_0 radix2 (2 - emax)); lra).
  pose proof (relative_error_N_FLT radix2 (SpecFloat.emin prec emax) prec Hp (fun x => negb (Z.even x)) x) as R.
  change (FLT_exp (SpecFloat.emin prec emax) prec) with (SpecFloat.fexp prec emax) in R. rewrite (Rabs_pos_eq x) in R by lra. rewrite (u_half prec) in R.
  unfold rel. apply R. replace (SpecFloat.emin prec emax + prec - 1)%Z with (2 - emax)%Z by (unfold SpecFloat.emin; ring). exact H.
Qed.
Lemma u24 : 0 < u <= / 10000000.
Proof. split; [apply bpow_gt_0|]. apply Rle_trans with (bpow radix2 (-24)); [apply bpow_le; lia|]. change (/ 16777216 <= / 10000000). apply Rinv_le; lra. Qed.
Lemma tiny_le : 0 < tiny <= / 1000000000.
Proof. split; [apply bpow_gt_0|]. apply Rle_trans with (bpow radix2 (-30)); [apply bpow_le; lia|]. change (/ 1073741824 <= / 1000000000). apply Rinv_le; lra. Qed.
Lemma eta_le : 0 < eta <= u / 1000000000.
Proof. split; [apply bpow_gt_0|]. replace (2 - emax - prec)%Z with (- prec + (2 - emax))%Z by ring. rewrite bpow_plus. apply Rmult_le_compat_l; [apply bpow_ge_0|apply tiny_le]. Qed.
Lemma huge : 10000 <= bpow radix2 emax.
Proof. apply Rle_trans with (bpow radix2 14); [change (10000 <= 16384); lra|apply bpow_le; lia]. Qed.
Lemma rnd_below x : tiny <= x <= 1000 -> Rabs (rnd x) < bpow radix2 emax.
Proof. intros [A B]. pose proof (rnd_rel x A) as R. apply rel_bounds in R. destruct u24. pose proof huge. pose proof tiny_le. apply Rabs_def1; nra. Qed.

Lemma fmul (x y : fl) : is_finite x = true -> is_finite y = true -> tiny <= B2R x * B2R y <= 1000 -> is_finite (Bmult mode_NE x y) = true /\ rel u (B2R (Bmult mode_NE x y)) (B2R x * B2R y).
Proof.
  intros X Y H. assert (F : is_finite (Bmult mode_NE x y) = true) by (apply mult_small; try assumption; apply rnd_below, H). split; [exact F|].
  apply mult_fin in F. destruct F as (_ & _ & E). rewrite E. apply rnd_rel, H.
Qed.
Lemma fplus (x y : fl) : is_finite x = true -> is_finite y = true -> tiny <= B2R x + B2R y <= 1000 -> is_finite (Bplus mode_NE x y) = true /\ rel u (B2R (Bplus mode_NE x y)) (B2R x + B2R y).
Proof.
  intros X Y H. assert (F : is_finite (Bplus mode_NE x y) = true) by (apply plus_small; try assumption; apply rnd_below, H). split; [exact F|].
  apply plus_fin in F. destruct F as (_ & _ & E). rewrite E. apply rnd_rel, H.
Qed.
Lemma fdiv (x y : fl) : is_finite x = true -> B2R y <> 0 -> Rabs (rnd (B2R x / B2R y)) < bpow radix2 emax -> is_finite (Bdiv mode_NE x y) = true /\ B2R (Bdiv mode_NE x y) = rnd (B2R x / B2R y).
Proof. intros X Y H. pose proof (Bdiv_correct prec emax _ _ mode_NE x y Y) as D. cbn [round_mode] in D. rewrite Rlt_bool_true in D by exact H. destruct D as (D1 & D2 & _). rewrite D2. split; assumption. Qed.
Lemma fminus (x y : fl) : is_finite x = true -> is_finite y = true -> Rabs (B2R x - B2R y) <= 1000 -> is_finite (Bminus mode_NE x y) = true /\ Rabs (B2R (Bminus mode_NE x y) - (B2R x - B2R y)) <= u * Rabs (B2R x - B2R y).
Proof.
  intros X Y H. pose proof (rnd_diff prec emax x y) as R. destruct u24 as [U0 U]. pose proof huge as G.
  assert (S : Rabs (rnd (B2R x - B2R y)) < bpow radix2 emax).
  { replace (rnd (B2R x - B2R y)) with ((B2R x - B2R y) + (rnd (B2R x - B2R y) - (B2R x - B2R y))) by ring. eapply Rle_lt_trans; [apply Rabs_triang|]. assert (u * Rabs (B2R x - B2R y) <= / 10000000 * 1000) by (apply Rmult_le_compat; try apply Rabs_pos; lra). lra. }
  pose proof (Bminus_correct prec emax _ _ mode_NE x y X Y) as C. cbn [round_mode] in C. rewrite Rlt_bool_true in C by exact S. destruct C as (C1 & C2 & _). rewrite C1. split; assumption.
Qed.

(* powf within 4 half-units in the last place, away from underflow, for bases up to 2 and exponents up to 3 *)
Definition powf_ok (pw : fl -> fl -> fl) : Prop := forall x y, is_finite x = true -> is_finite y = true -> 0 < B2R x <= 2 -> 0 <= B2R y <= 3 ->
  tiny <= Rpower (B2R x) (B2R y) -> is_finite (pw x y) = true /\ rel (4 * u) (B2R (pw x y)) (Rpower (B2R x) (B2R y)).

Context (pw : fl -> fl -> fl) (PW : powf_ok pw).
(* the nominal curve: slope s below t0, a x^(1/g) - o above, pieces meeting up to k *)
Context (s o a g t0 k : R) (Hs : 4 <= s <= 13) (Ho : 0.05 <= o <= 0.1) (Ha : a = 1 + o) (Hg : 2 <= g <= 2.5) (Ht0 : 0.003 <= t0 <= 0.02) (Ht1 : 0.04 <= t0 * s <= 0.1)
  (Hk : Rabs (a * Rpower t0 (/ g) - o - t0 * s) <= k) (Hk2 : k + u <= (o + t0 * s - k) / 700) (Hk3 : t0 * s <= 0.46 * (o + t0 * s - k)).
(* the constants as the code has them *)
Context (fs fo1 fa1 fg fa2 fp fo2 ft0 ft1 : fl).
Context (Fs : is_finite fs = true) (Fo1 : is_finite fo1 = true) (Fa1 : is_finite fa1 = true) (Fg : is_finite fg = true) (Fa2 : is_finite fa2 = true) (Fp : is_finite fp = true) (Fo2 : is_finite fo2 = true).
Context (Rs : rel (2 * u) (B2R fs) s) (Ro1 : Rabs (B2R fo1 - o) <= 1.3 * u) (Ra1 : rel (3 * u) (B2R fa1) a) (Rg : rel (3 * u) (B2R fg) g) (Ra2 : rel (3 * u) (B2R fa2) a)
  (Rp : rel (3 * u) (B2R fp) (/ g)) (Ro2 : Rabs (B2R fo2 - o) <= 1.3 * u) (Rt0 : rel (2 * u) (B2R ft0) t0) (Rt1 : rel (4 * u) (B2R ft1) (t0 * s)).

Lemma k_pos : 0 <= k. Proof. eapply Rle_trans; [apply Rabs_pos|exact Hk]. Qed.
Lemma p_range : 0.4 <= / g <= 0.5.
Proof. split; [replace 0.4 with (/ 2.5) by lra|replace 0.5 with (/ 2) by lra]; apply Rinv_le; lra. Qed.

Definition dlin (x : fl) : fl := Bdiv mode_NE x fs.
Definition dpow (x : fl) : fl := pw (Bdiv mode_NE (Bplus mode_NE x fo1) fa1) fg.
Definition elin (d : fl) : fl := Bmult mode_NE d fs.
Definition epow (d : fl) : fl := Bminus mode_NE (Bmult mode_NE fa2 (pw d fp)) fo2.

Lemma dlin_ok x : is_finite x = true -> 0 <= B2R x <= 1 -> is_finite (dlin x) = true /\ Rabs (B2R (dlin x) - B2R x / s) <= 3.5 * u * (B2R x / s) + eta.
Proof.
  intros F H. destruct u24 as [U0 U]. destruct eta_le as [T0 T]. pose proof huge as G.
  assert (SP : 0 < B2R fs) by (apply (rel_pos (2 * u) _ s); [lra|lra|exact Rs]).
  assert (Q : rel (1.03 * (2 * u)) (B2R x / B2R fs) (B2R x / s)). { replace (2 * u) with (0 + 2 * u) by ring. apply rel_div; try lra; [|exact Rs]. unfold rel. rewrite Rmult_0_l. replace (B2R x - B2R x) with 0 by ring. rewrite Rabs_R0. lra. }
  assert (XS : 0 <= B2R x / s <= 0.25). { split; [apply Rmult_le_pos; [lra|apply Rlt_le, Rinv_0_lt_compat; lra]|]. apply (Rmult_le_reg_r s); [lra|]. unfold Rdiv. rewrite Rmult_assoc, Rinv_l by lra. lra. }
  pose proof (rel_bounds _ _ _ Q) as B. pose proof (rnd_any prec emax (B2R x / B2R fs)) as R. 
  assert (V : 0 <= B2R x / B2R fs <= 0.26). { assert (0 <= 1.03 * (2 * u) * (B2R x / s) <= 0.01) by (clear - U0 U XS; nra). assert (0 <= (1 - 1.03 * (2 * u)) * (B2R x / s)) by (apply Rmult_le_pos; lra). lra. }
  rewrite (Rabs_pos_eq (B2R x / B2R fs)) in R by lra.
  destruct (fdiv x fs F ltac:(lra)) as [D1 D2].
  { replace (rnd (B2R x / B2R fs)) with (B2R x / B2R fs + (rnd (B2R x / B2R fs) - B2R x / B2R fs)) by ring. eapply Rle_lt_trans; [apply Rabs_triang|]. rewrite (Rabs_pos_eq (B2R x / B2R fs)) by lra. assert (u * (B2R x / B2R fs) <= 0.01) by (clear - U0 U V; nra). lra. }
  unfold dlin. split; [exact D1|]. rewrite D2. unfold rel in Q. set (v := B2R x / B2R fs) in *. set (r := B2R x / s) in *.
  replace (rnd v - r) with ((rnd v - v) + (v - r)) by ring. eapply Rle_trans; [apply Rabs_triang|]. assert (UR : 0 <= u * r) by (apply Rmult_le_pos; lra). assert (u * v <= u * ((1 + 1.03 * (2 * u)) * r)) by (apply Rmult_le_compat_l; lra). assert (u * (u * r) <= 0.1 * (u * r)) by (apply Rmult_le_compat_r; lra). lra.
Qed.
Lemma elin_ok d : is_finite d = true -> 0 <= B2R d <= 1 -> is_finite (elin d) = true /\ Rabs (B2R (elin d) - B2R d * s) <= 3.5 * u * (B2R d * s) + eta.
Proof.
  intros F H. destruct u24 as [U0 U]. destruct eta_le as [T0 T]. pose proof huge as G. pose proof (rel_bounds _ _ _ Rs) as B.
  pose proof (rnd_any prec emax (B2R d * B2R fs)) as R. assert (DS : 0 <= B2R d * s <= 13) by (clear - H Hs; nra).
  assert (V : (1 - 2 * u) * (B2R d * s) <= B2R d * B2R fs <= (1 + 2 * u) * (B2R d * s)). { replace ((1 - 2 * u) * (B2R d * s)) with (B2R d * ((1 - 2 * u) * s)) by ring. replace ((1 + 2 * u) * (B2R d * s)) with (B2R d * ((1 + 2 * u) * s)) by ring. split; apply Rmult_le_compat_l; lra. }
  set (v := B2R d * B2R fs) in *. set (r := B2R d * s) in *. assert (UR : 0 <= u * r <= 0.01) by (clear - U0 U DS; nra). assert (V0 : 0 <= (1 - 2 * u) * r) by (apply Rmult_le_pos; lra). rewrite (Rabs_pos_eq v) in R by lra.
  assert (UV : u * v <= u * ((1 + 2 * u) * r)) by (apply Rmult_le_compat_l; lra). assert (UU : u * (u * r) <= 0.1 * (u * r)) by (apply Rmult_le_compat_r; lra).
  assert (F' : is_finite (elin d) = true). { apply mult_small; try assumption. fold v. replace (rnd v) with (v + (rnd v - v)) by ring. eapply Rle_lt_trans; [apply Rabs_triang|]. rewrite (Rabs_pos_eq v) by lra. lra. }
  split; [exact F'|]. unfold elin in *. apply mult_fin in F'. destruct F' as (_ & _ & E). rewrite E. fold v.
  replace (rnd v - r) with ((rnd v - v) + (v - r)) by ring. eapply Rle_trans; [apply Rabs_triang|]. assert (Rabs (v - r) <= 2 * u * r) by (apply Rabs_le; lra). lra.
Qed.

(* the power pieces *)
Lemma dpow_ok x : is_finite x = true -> B2R x <= 1 -> t0 * s * (1 - 4 * u) <= B2R x ->
  is_finite (dpow x) = true /\ rel (83 * u) (B2R (dpow x)) (Rpower ((B2R x + o) / a) g) /\ 0.08 <= (B2R x + o) / a <= 1.
Proof.
  intros F H1 H2. destruct u24 as [U0 U]. pose proof tiny_le as [T0 T]. assert (X0 : 0.039 <= B2R x) by (clear - U0 U Ht1 H2; nra).
  apply Rabs_le_inv in Ro1. assert (A1 : 1.05 <= a <= 1.1) by lra.
  assert (Y : 0.08 <= (B2R x + o) / a <= 1). { split; apply (Rmult_le_reg_r a); try lra; unfold Rdiv; rewrite Rmult_assoc, Rinv_l by lra; lra. }
  destruct (fplus x fo1 F Fo1 ltac:(lra)) as [F1 R1]. set (x1 := Bplus mode_NE x fo1) in *.
  assert (S1 : rel (15 * u) (B2R x + B2R fo1) (B2R x + o)). { apply Rabs_le. assert (15 * u * 0.089 <= 15 * u * (B2R x + o)) by (apply Rmult_le_compat_l; lra). lra. }
  pose proof (rel_trans _ _ _ _ _ R1 S1 ltac:(lra) ltac:(lra) ltac:(lra)) as S2.
  pose proof (rel_div _ _ _ _ _ _ S2 Ra1 ltac:(lra) ltac:(lra) ltac:(lra) ltac:(lra)) as S3.
  pose proof (rel_bounds _ _ _ S3) as B3. set (y := (B2R x + o) / a) in *. set (y1 := B2R x1 / B2R fa1) in *.
  assert (AP : 0 < B2R fa1) by (apply (rel_pos (3 * u) _ a); [lra|lra|exact Ra1]).
  assert (Y1 : 0.07 <= y1 <= 1.1) by (clear - B3 Y U0 U; nra).
  destruct (fdiv x1 fa1 F1 ltac:(lra) ltac:(apply rnd_below; fold y1; lra)) as [F2 E2]. fold y1 in E2. pose proof (rnd_rel y1 ltac:(lra)) as R2. rewrite <- E2 in R2. set (y2 := Bdiv mode_NE x1 fa1) in *.
  pose proof (rel_trans _ (20 * u) _ _ _ R2 (rel_weaken _ (20 * u) _ _ S3 ltac:(lra) ltac:(lra)) ltac:(lra) ltac:(lra) ltac:(lra)) as S4.
  assert (S5 : rel (21.3 * u) (B2R y2) y) by (eapply rel_weaken; [exact S4| |]; lra). pose proof (rel_bounds _ _ _ S5) as B5.
  assert (Y2 : 0.06 <= B2R y2 <= 1.1) by (clear - B5 Y U0 U; nra).
  pose proof (rel_bounds _ _ _ Rg) as Bg. assert (G2 : 1.9 <= B2R fg <= 2.6) by (clear - Bg Hg U0 U; nra).
  assert (LN : Rabs (ln (B2R y2)) <= 3). { replace 3 with (INR 3) by (rewrite INR_IZR_INZ; reflexivity). apply (ln_bound 3). split; lra. }
  pose proof (rel_exponent (7.5 * u) 3 g (B2R fg) (B2R y2) ltac:(apply Rabs_le; clear - Bg Hg U0; nra) LN ltac:(lra)) as P1.
  pose proof (rel_pow _ g _ _ S5 ltac:(lra) ltac:(lra) ltac:(lra)) as P2.
  assert (P2' : rel (54.5 * u) (Rpower (B2R y2) g) (Rpower y g)). { eapply rel_weaken; [exact P2| |apply Rlt_le, exp_pos]. clear - U0 Hg. nra. }
  pose proof (rel_trans _ _ _ _ _ P1 P2' ltac:(lra) ltac:(lra) (Rlt_le _ _ (exp_pos _))) as P3.
  assert (EQ : (/ 3) ^ 8 <= Rpower (B2R y2) (B2R fg)). { apply exp_neg. replace (INR 8) with 8 by (rewrite INR_IZR_INZ; reflexivity). apply Rabs_le_inv in LN. clear - LN G2. nra. }
  assert (LO : tiny <= Rpower (B2R y2) (B2R fg)) by lra.
  destruct (PW y2 fg F2 Fg ltac:(lra) ltac:(lra) LO) as [F3 P4]. unfold dpow. fold x1 y2. split; [exact F3|]. split; [|exact Y].
  pose proof (rel_trans _ _ _ _ _ P4 P3 ltac:(lra) ltac:(lra) (Rlt_le _ _ (exp_pos _))) as P5'. eapply rel_weaken; [exact P5'| |apply Rlt_le, exp_pos]. lra.
Qed.
(* d near the exact decoded value e: a e^(1/g) - o up to 30 u and the propagated error *)
Lemma epow_ok d e f : is_finite d = true -> 0.0029 <= B2R d <= 1.1 -> 0 < e -> 0 <= f <= 90 * u -> rel f (B2R d) e -> Rpower e (/ g) <= 1.1 ->
  is_finite (epow d) = true /\ Rabs (B2R (epow d) - (a * Rpower e (/ g) - o)) <= (19.3 * u + 0.54 * f) * (a * Rpower e (/ g)) + 2.6 * u.
Proof.
  intros F D E1 Hf R0 E2. destruct u24 as [U0 U]. pose proof tiny_le as [T0 T]. apply Rabs_le_inv in Ro2. assert (A1 : 1.05 <= a <= 1.1) by lra. pose proof p_range as PR.
  pose proof (rel_bounds _ _ _ Rp) as Bp. assert (G2 : 0.39 <= B2R fp <= 0.51) by (clear - Bp PR U0 U; nra).
  assert (LN : Rabs (ln (B2R d)) <= 7). { replace 7 with (INR 7) by (rewrite INR_IZR_INZ; reflexivity). apply (ln_bound 7). split; lra. }
  pose proof (rel_exponent (1.5 * u) 7 (/ g) (B2R fp) (B2R d) ltac:(apply Rabs_le; clear - Bp PR U0; nra) LN ltac:(lra)) as P1.
  pose proof (rel_pow f (/ g) _ _ R0 ltac:(lra) ltac:(lra) E1) as P2.
  assert (P2' : rel (0.51 * f) (Rpower (B2R d) (/ g)) (Rpower e (/ g))). { eapply rel_weaken; [exact P2| |apply Rlt_le, exp_pos]. clear - PR Hf. nra. }
  pose proof (rel_trans _ _ _ _ _ P1 P2' ltac:(lra) ltac:(lra) (Rlt_le _ _ (exp_pos _))) as P3.
  assert (EQ : (/ 3) ^ 4 <= Rpower (B2R d) (B2R fp)). { apply exp_neg. replace (INR 4) with 4 by (rewrite INR_IZR_INZ; reflexivity). apply Rabs_le_inv in LN. clear - LN G2. nra. }
  assert (LO : tiny <= Rpower (B2R d) (B2R fp)) by lra.
  destruct (PW d fp F Fp ltac:(lra) ltac:(lra) LO) as [F3 P4].
  pose proof (rel_trans _ _ _ _ _ P4 P3 ltac:(lra) ltac:(lra) (Rlt_le _ _ (exp_pos _))) as P6.
  set (q := pw d fp) in *. set (w := Rpower e (/ g)) in *. assert (W0 : 0 < w) by apply exp_pos.
  assert (P7 : rel (14.8 * u + 0.521 * f) (B2R q) w) by (eapply rel_weaken; [exact P6| |]; lra).
  pose proof (rel_mul _ _ _ _ _ _ Ra2 P7 ltac:(lra) ltac:(lra) ltac:(lra) (Rlt_le _ _ W0)) as P8.
  assert (AW : 0 < a * w <= 1.21) by (clear - A1 W0 E2; nra). pose proof (rel_bounds _ _ _ P8) as B8. set (m := B2R fa2 * B2R q) in *.
  assert (M : tiny <= m <= 1000).
  { split.
    - assert (WL : 0.01 <= w). { pose proof (rel_bounds _ _ _ P7) as B7. pose proof (rel_bounds _ _ _ P4) as B4. clear - B7 B4 EQ U0 U Hf W0. nra. }
      clear - B8 WL A1 U0 U Hf T. assert (0.0105 <= a * w) by nra. nra.
    - set (c := 1.01 * (3 * u + (14.8 * u + 0.521 * f))) in *. assert (0 <= c <= 0.001) by (unfold c; lra). clear - B8 AW H. nra. }
  destruct (fmul fa2 q Fa2 F3 ltac:(fold m; exact M)) as [F4 R4]. fold m in R4. 
  pose proof (rel_trans _ _ _ _ _ R4 P8 ltac:(lra) ltac:(lra) (Rlt_le _ _ (proj1 AW))) as P9. set (z := Bmult mode_NE fa2 q) in *.
  assert (P10 : rel (19.2 * u + 0.532 * f) (B2R z) (a * w)) by (eapply rel_weaken; [exact P9| |]; lra). pose proof (rel_bounds _ _ _ P10) as B10.
  assert (Z : 0 <= B2R z <= 1.3). { set (c := 19.2 * u + 0.532 * f) in *. assert (0 <= c <= 0.001) by (unfold c; lra). clear - B10 AW H. nra. }
  destruct (fminus z fo2 F4 Fo2 ltac:(apply Rabs_le; lra)) as [F5 R5]. unfold epow. fold q z. split; [exact F5|].
  assert (ZO : Rabs (B2R z - B2R fo2) <= 1.3) by (apply Rabs_le; lra).
  set (v := B2R (Bminus mode_NE z fo2)) in *. unfold rel in P10.
  replace (v - (a * w - o)) with ((v - (B2R z - B2R fo2)) + (B2R z - a * w) + (o - B2R fo2)) by ring.
  pose proof (Rabs_triang ((v - (B2R z - B2R fo2)) + (B2R z - a * w)) (o - B2R fo2)). pose proof (Rabs_triang (v - (B2R z - B2R fo2)) (B2R z - a * w)).
  assert (Rabs (o - B2R fo2) <= 1.3 * u) by (apply Rabs_le; lra). assert (u * Rabs (B2R z - B2R fo2) <= u * 1.3) by (apply Rmult_le_compat_l; lra).
  assert (0 <= f * (a * w)) by (apply Rmult_le_pos; lra). assert (0 <= u * (a * w)) by (apply Rmult_le_pos; lra). lra.
Qed.

Lemma root_pow x : 0 < x -> Rpower (Rpower x g) (/ g) = x.
Proof. intro X. rewrite Rpower_mult. replace (g * / g) with 1 by (field; lra). apply Rpower_1, X. Qed.
Lemma pow_root x : 0 < x -> Rpower (Rpower x (/ g)) g = x.
Proof. intro X. rewrite Rpower_mult. replace (/ g * g) with 1 by (field; lra). apply Rpower_1, X. Qed.
Lemma pow_le x y z : 0 <= z -> 0 < x <= y -> Rpower x z <= Rpower y z.
Proof. intros Z [X Y]. apply Rle_Rpower_l; lra. Qed.

Lemma decoded x d : is_finite x = true -> 0 <= B2R x <= 1 -> (B2R x <= B2R ft1 /\ d = dlin x) \/ (B2R ft1 <= B2R x /\ d = dpow x) -> is_finite d = true /\ 0 <= B2R d <= 1.05.
Proof.
  intros F H [[A ->]|[A ->]].
  - destruct (dlin_ok x F H) as [D E]. split; [exact D|]. destruct u24 as [U0 U]. destruct eta_le as [T0 T].
    assert (XS : 0 <= B2R x / s <= 0.25). { split; [apply Rmult_le_pos; [lra|apply Rlt_le, Rinv_0_lt_compat; lra]|]. apply (Rmult_le_reg_r s); [lra|]. unfold Rdiv. rewrite Rmult_assoc, Rinv_l by lra. lra. }
    split; [|apply Rabs_le_inv in E; clear - E XS U0 U T0 T; nra].
    (* a quotient of nonnegative floats is nonnegative *)
    assert (SP : 0 < B2R fs) by (apply (rel_pos (2 * u) _ s); [lra|lra|exact Rs]).
    assert (Q0 : 0 <= B2R x / B2R fs) by (apply Rmult_le_pos; [lra|apply Rlt_le, Rinv_0_lt_compat; lra]).
    unfold dlin in *. pose proof (Bdiv_correct prec emax _ _ mode_NE x fs ltac:(lra)) as C. cbn [round_mode] in C. destruct (Rlt_bool _ _).
    + destruct C as (C & _). rewrite C. rewrite <- (round_0 radix2 (SpecFloat.fexp prec emax) ZnearestE). apply round_le; auto with typeclass_instances.
    + rewrite <- is_finite_SF_B2SF, C in D. discriminate.
  - pose proof (rel_bounds _ _ _ Rt1) as B. destruct (dpow_ok x F (proj2 H) ltac:(lra)) as (D & R & Y). split; [exact D|]. apply rel_bounds in R. destruct u24 as [U0 U].
    assert (P : 0 < Rpower ((B2R x + o) / a) g) by apply exp_pos. assert (P1 : Rpower ((B2R x + o) / a) g <= 1). { rewrite <- (rpower_1 g). apply pow_le; lra. } clear - R P P1 U0 U. nra.
Qed.

Theorem curve x d v : is_finite x = true -> 0 <= B2R x <= 1 ->
  (B2R x <= B2R ft1 /\ d = dlin x) \/ (B2R ft1 <= B2R x /\ d = dpow x) ->
  (B2R d <= B2R ft0 /\ v = elin d) \/ (B2R ft0 <= B2R d /\ v = epow d) ->
  is_finite v = true /\ Rabs (B2R v - B2R x) <= 75 * u + 1.2 * k.
Proof.
  intros F H DC EC. destruct (decoded x d F H DC) as [Fd Bd']. assert (Bd : 0 <= B2R d <= 1.1) by lra. destruct u24 as [U0 U]. destruct eta_le as [T0 T]. pose proof k_pos as K0.
  pose proof (rel_bounds _ _ _ Rt1) as B1. pose proof (rel_bounds _ _ _ Rt0) as B0. set (t1 := t0 * s) in *. assert (A1 : 1.05 <= a <= 1.1) by lra. pose proof p_range as PR.
  assert (ROOT : a * Rpower t0 (/ g) <= o + t1 + k /\ o + t1 - k <= a * Rpower t0 (/ g)) by (apply Rabs_le_inv in Hk; fold t1 in Hk; lra).
  assert (KS : k <= 0.001). { fold t1 in Hk2. lra. }
  destruct DC as [[C1 E1]|[C1 E1]]; destruct EC as [[C2 E2]|[C2 E2]].
  - (* linear, linear *)
    destruct (dlin_ok x F H) as [_ D]. rewrite <- E1 in D. destruct (elin_ok d Fd ltac:(fold t1 in B0; clear - C2 B0 Ht0 U0 U Bd; nra)) as [G E]. rewrite <- E2 in G, E. split; [exact G|].
    assert (XS : s * (B2R x / s) = B2R x) by (field; lra). set (r := B2R x / s) in *. assert (X1 : B2R x <= 0.2) by (fold t1 in Ht1; clear - C1 B1 Ht1 U0 U; nra).
    assert (R0 : 0 <= r <= 0.05) by (clear - XS X1 Hs H; nra). assert (DS : 0 <= B2R d * s <= 0.4) by (clear - C2 B0 Ht0 U0 U Bd Ht1 Hs; assert (B2R d <= 0.021) by nra; nra).
    assert (S2 : Rabs (B2R d * s - B2R x) <= 13 * (3.5 * u * r + eta)). { rewrite <- XS at 1. replace (B2R d * s - s * r) with (s * (B2R d - r)) by ring. rewrite Rabs_mult, (Rabs_pos_eq s) by lra. apply Rmult_le_compat; try lra. apply Rabs_pos. }
    replace (B2R v - B2R x) with ((B2R v - B2R d * s) + (B2R d * s - B2R x)) by ring. eapply Rle_trans; [apply Rabs_triang|].
    assert (u * r <= u * 0.05) by (apply Rmult_le_compat_l; lra). assert (u * (B2R d * s) <= u * 0.4) by (apply Rmult_le_compat_l; lra). lra.
  - (* linear, power: both at the joint *)
    destruct (dlin_ok x F H) as [_ D]. rewrite <- E1 in D. assert (XS : s * (B2R x / s) = B2R x) by (field; lra). set (r := B2R x / s) in *. apply Rabs_le_inv in D.
    assert (SI : 0 < s) by lra. assert (R1 : r <= (1 + 4 * u) * t0). { apply (Rmult_le_reg_l s); [lra|]. rewrite XS. unfold t1 in B1. lra. }
    assert (R0 : 0 <= r). { unfold r. apply Rmult_le_pos; [lra|apply Rlt_le, Rinv_0_lt_compat; lra]. }
    assert (UR : 0 <= u * r <= u * ((1 + 4 * u) * t0)) by (split; [apply Rmult_le_pos; lra|apply Rmult_le_compat_l; lra]). assert (UU : 0 <= u * (u * t0) <= 0.01 * (u * t0)) by (split; [|apply Rmult_le_compat_r]; repeat apply Rmult_le_pos; lra).
    assert (ET : eta <= 0.01 * (u * t0)) by (clear - T Ht0 U0; nra).
    assert (D7 : rel (8 * u) (B2R d) t0) by (apply Rabs_le; lra).
    assert (R2 : (1 - 8 * u) * t0 <= r) by lra.
    assert (XT : Rabs (B2R x - t1) <= u). { rewrite <- XS. unfold t1. replace (s * r - t0 * s) with (s * (r - t0)) by ring. rewrite Rabs_mult, (Rabs_pos_eq s) by lra. assert (Rabs (r - t0) <= 8 * (u * t0)) by (apply Rabs_le; lra). apply Rle_trans with (s * (8 * (u * t0))); [apply Rmult_le_compat_l; lra|]. replace (s * (8 * (u * t0))) with (8 * u * (t0 * s)) by ring. fold t1. clear - U0 Ht1. nra. }
    assert (P1 : Rpower t0 (/ g) <= 1.1). { apply Rle_trans with 1; [|lra]. rewrite <- (rpower_1 (/ g)). apply pow_le; lra. }
    destruct (epow_ok d t0 (8 * u) Fd ltac:(clear - C2 B0 Ht0 U0 U Bd; nra) ltac:(lra) ltac:(lra) D7 P1) as [G E]. rewrite <- E2 in G, E. split; [exact G|].
    set (w := a * Rpower t0 (/ g)) in *. assert (W : 0 <= w <= 0.3) by lra. apply Rabs_le_inv in E, XT. apply Rabs_le_inv in Hk. fold w in Hk.
    assert (0 <= u * w <= u * 0.3) by (split; [apply Rmult_le_pos; lra|apply Rmult_le_compat_l; lra]). apply Rabs_le. lra.
  - (* power, linear: both at the joint *)
    destruct (dpow_ok x F (proj2 H) ltac:(fold t1; lra)) as (_ & R & Y). rewrite <- E1 in R. set (y := (B2R x + o) / a) in *. assert (XY : B2R x = a * y - o) by (unfold y; field; lra).
    assert (YG : 0 < Rpower y g) by apply exp_pos. apply rel_bounds in R.
    assert (UP : rel (87 * u) (Rpower y g) (Rpower y g) /\ Rpower y g <= (1 + 87 * u) * t0).
    { split; [apply rel_refl; lra|]. apply (Rmult_le_reg_l (1 - 83 * u)); [lra|]. clear - R C2 B0 U0 U Ht0. assert (0 < u * t0) by nra. assert (u * (u * t0) <= 0.0001 * (u * t0)) by (apply Rmult_le_compat_r; lra). nra. }
    destruct UP as [_ UP]. assert (YU : y <= Rpower t0 (/ g) * (1 + 45 * u)).
    { rewrite <- (root_pow y) by lra. apply Rle_trans with (Rpower ((1 + 87 * u) * t0) (/ g)); [apply pow_le; lra|].
      assert (Q : rel (87 * u) ((1 + 87 * u) * t0) t0) by (apply Rabs_le; clear - U0 Ht0; nra). pose proof (rel_pow _ (/ g) _ _ Q ltac:(lra) ltac:(lra) ltac:(lra)) as Z. apply rel_bounds in Z. assert (Z0 : 0 < Rpower t0 (/ g)) by apply exp_pos.
      assert (/ g * (87 * u) <= 0.5 * (87 * u)) by (apply Rmult_le_compat_r; lra). eapply Rle_trans; [apply Z|]. clear - Z0 H0 U0. nra. }
    set (w := Rpower t0 (/ g)) in *. assert (W0 : 0 < w) by apply exp_pos. assert (W1 : 0 <= a * w <= 0.3) by lra.
    assert (XU : B2R x <= t1 + k + 14 * u). { rewrite XY. assert (a * y <= a * (w * (1 + 45 * u))) by (apply Rmult_le_compat_l; lra). assert (u * (a * w) <= u * 0.3) by (apply Rmult_le_compat_l; lra). lra. }
    assert (XL : t1 - u <= B2R x). { assert (u * t1 <= u * 0.1) by (apply Rmult_le_compat_l; lra). lra. }
    set (e := Rmax 0 (a * w - a * y)). assert (M : 0.04 <= o + t1 - k) by lra. assert (e0 : 0 <= e) by apply Rmax_l. assert (e1 : a * w - a * y <= e) by apply Rmax_r. assert (AW0 : 0 < a * w) by (apply Rmult_lt_0_compat; lra).
    assert (e2 : e <= k + u) by (apply Rmax_lub; lra). assert (XE : B2R x <= t1 + k - e + 14 * u). { unfold e, Rmax. destruct (Rle_dec 0 (a * w - a * y)); lra. }
    set (q := e / (a * w)). assert (QM : q * (a * w) = e) by (unfold q; field; lra). assert (Q1 : 0 <= q <= / 700). { split; [apply Rmult_le_pos; [lra|apply Rlt_le, Rinv_0_lt_compat; lra]|]. apply (Rmult_le_reg_r (a * w)); [lra|]. rewrite QM. fold t1 in Hk2. lra. }
    assert (YL : (1 - q) * w <= y). { apply (Rmult_le_reg_l a); [lra|]. replace (a * ((1 - q) * w)) with (a * w - q * (a * w)) by ring. lra. }
    assert (YGL : (1 - 2.55 * q) * t0 <= Rpower y g).
    { apply Rle_trans with (Rpower ((1 - q) * w) g); [|apply pow_le; [lra|split; [apply Rmult_lt_0_compat; lra|exact YL]]].
      assert (Q : rel q ((1 - q) * w) w) by (apply Rabs_le; clear - Q1 W0; nra). pose proof (rel_pow _ g _ _ Q ltac:(lra) ltac:(lra) W0) as Z. assert (WG : Rpower w g = t0) by (apply pow_root; lra). rewrite WG in Z. apply rel_bounds in Z.
      assert (g * q <= 2.5 * q) by (apply Rmult_le_compat_r; lra). eapply Rle_trans; [|apply Z]. apply Rmult_le_compat_r; lra. }
    assert (DL : (1 - 83 * u) * ((1 - 2.55 * q) * t0) <= B2R d). { eapply Rle_trans; [|apply R]. apply Rmult_le_compat_l; lra. }
    destruct (elin_ok d Fd ltac:(clear - C2 B0 Ht0 U0 U Bd; nra)) as [G E]. rewrite <- E2 in G, E. split; [exact G|].
    assert (DSL : t1 - 2.55 * (q * t1) - 84 * (u * t1) <= B2R d * s). { apply Rle_trans with ((1 - 83 * u) * ((1 - 2.55 * q) * t0) * s); [|apply Rmult_le_compat_r; lra]. unfold t1. assert (0 < u * (t0 * s)) by (apply Rmult_lt_0_compat; [lra|fold t1; lra]). assert (0 <= q * (u * (t0 * s))) by (apply Rmult_le_pos; lra). lra. }
    assert (DSU : B2R d * s <= t1 + 3 * (u * t1)). { apply Rle_trans with ((1 + 2 * u) * t0 * s); [apply Rmult_le_compat_r; lra|]. unfold t1. assert (0 < u * (t0 * s)) by (apply Rmult_lt_0_compat; [lra|fold t1; lra]). lra. }
    assert (QT : q * t1 <= 0.46 * e). { rewrite <- QM. apply Rle_trans with (q * (0.46 * (a * w))); [apply Rmult_le_compat_l; [lra|fold t1 in Hk3; lra]|lra]. }
    assert (UT : 0 <= u * t1 <= u * 0.1) by (split; [apply Rmult_le_pos; lra|apply Rmult_le_compat_l; lra]).
    assert (DD : 0 <= B2R d * s <= 0.3) by (split; [apply Rmult_le_pos; lra|lra]). assert (u * (B2R d * s) <= u * 0.3) by (apply Rmult_le_compat_l; lra). apply Rabs_le_inv in E. apply Rabs_le. lra.
  - (* power, power *)
    destruct (dpow_ok x F (proj2 H) ltac:(fold t1; lra)) as (_ & R & Y). rewrite <- E1 in R. set (y := (B2R x + o) / a) in *. assert (XY : a * y - o = B2R x) by (unfold y; field; lra).
    assert (RT : Rpower (Rpower y g) (/ g) = y) by (apply root_pow; lra).
    destruct (epow_ok d (Rpower y g) (83 * u) Fd ltac:(clear - C2 B0 Ht0 U0 U Bd; nra) (exp_pos _) ltac:(lra) R ltac:(rewrite RT; lra)) as [G E]. rewrite <- E2 in G, E. split; [exact G|]. rewrite RT, XY in E.
    eapply Rle_trans; [exact E|]. assert (AY : 0 <= a * y <= 1.1) by (clear - A1 Y; nra). assert (u * (a * y) <= u * 1.1) by (apply Rmult_le_compat_l; lra). lra.
Qed.
(* ---- the encoder is nearly Lipschitz ---- *)
Context (Hsl : / g * (o + t0 * s + k) <= 12.9 * t0).
Lemma elin_abs d : is_finite d = true -> Rabs (B2R d) <= 0.03 -> is_finite (elin d) = true /\ Rabs (B2R (elin d) - B2R d * s) <= 2 * u.
Proof.
  intros F H. destruct u24 as [U0 U]. destruct eta_le as [T0 T]. pose proof huge as G. pose proof (rel_bounds _ _ _ Rs) as B.
  pose proof (rnd_any prec emax (B2R d * B2R fs)) as R. assert (SB : 0 <= B2R fs <= 13.1) by (clear - B Hs U0 U; nra).
  assert (V : Rabs (B2R d * B2R fs) <= 0.4). { rewrite Rabs_mult, (Rabs_pos_eq (B2R fs)) by lra. apply Rle_trans with (0.03 * 13.1); [apply Rmult_le_compat; try lra; apply Rabs_pos|lra]. }
  assert (W : Rabs (B2R d * B2R fs - B2R d * s) <= 0.8 * u). { replace (B2R d * B2R fs - B2R d * s) with (B2R d * (B2R fs - s)) by ring. rewrite Rabs_mult. unfold rel in Rs. apply Rle_trans with (0.03 * (2 * u * s)); [apply Rmult_le_compat; try apply Rabs_pos; assumption|]. assert (u * s <= u * 13) by (apply Rmult_le_compat_l; lra). lra. }
  set (v := B2R d * B2R fs) in *. assert (UV : u * Rabs v <= u * 0.4) by (apply Rmult_le_compat_l; lra).
  assert (F' : is_finite (elin d) = true). { apply mult_small; try assumption. fold v. replace (rnd v) with (v + (rnd v - v)) by ring. eapply Rle_lt_trans; [apply Rabs_triang|]. lra. }
  split; [exact F'|]. unfold elin in *. apply mult_fin in F'. destruct F' as (_ & _ & E). rewrite E. fold v.
  replace (rnd v - B2R d * s) with ((rnd v - v) + (v - B2R d * s)) by ring. eapply Rle_trans; [apply Rabs_triang|]. lra.
Qed.
Lemma epow_abs d : is_finite d = true -> 0.0029 <= B2R d <= 1.1 -> is_finite (epow d) = true /\ Rabs (B2R (epow d) - (a * Rpower (B2R d) (/ g) - o)) <= 26.5 * u.
Proof.
  intros F H. destruct u24 as [U0 U]. pose proof p_range as PR.
  assert (P1 : Rpower (B2R d) (/ g) <= 1.1). { apply Rle_trans with (Rpower 1.1 (/ g)); [apply pow_le; lra|apply pow_above; lra]. }
  destruct (epow_ok d (B2R d) 0 F H ltac:(lra) ltac:(lra) ltac:(apply rel_refl; lra) P1) as [G E]. split; [exact G|]. eapply Rle_trans; [exact E|].
  assert (0 < Rpower (B2R d) (/ g)) by apply exp_pos. assert (a * Rpower (B2R d) (/ g) <= 1.1 * 1.1) by (apply Rmult_le_compat; lra). assert (0 <= a * Rpower (B2R d) (/ g)) by (apply Rmult_le_pos; lra).
  assert (u * (a * Rpower (B2R d) (/ g)) <= u * 1.21) by (apply Rmult_le_compat_l; lra). lra.
Qed.
Lemma joint_at t : rel (2 * u) t t0 -> 0.0029 <= t <= 0.021 /\ Rabs (a * Rpower (t) (/ g) - o - t * s) <= k + u /\ / g * (a * Rpower (t) (/ g)) <= 13 * t.
Proof.
  intro RT. destruct u24 as [U0 U]. pose proof (rel_bounds _ _ _ RT) as B. pose proof k_pos as K0. pose proof p_range as PR. assert (A1 : 1.05 <= a <= 1.1) by lra.
  pose proof (rel_pow _ (/ g) _ _ RT ltac:(lra) ltac:(lra) ltac:(lra)) as P. assert (P' : rel (1.02 * u) (Rpower (t) (/ g)) (Rpower t0 (/ g))). { eapply rel_weaken; [exact P| |apply Rlt_le, exp_pos]. clear - PR U0. nra. }
  apply rel_bounds in P'. set (w := Rpower t0 (/ g)) in *. set (w' := Rpower (t) (/ g)) in *. assert (W0 : 0 < w) by apply exp_pos. clearbody w w'.
  assert (KS : k <= 0.001) by lra. pose proof Hk as Hk'. apply Rabs_le_inv in Hk'. assert (AW : 0 < a * w <= 0.3) by (split; [apply Rmult_lt_0_compat|]; lra).
  assert (AW' : a * w - 1.02 * (u * (a * w)) <= a * w' <= a * w + 1.02 * (u * (a * w))). { replace (a * w - 1.02 * (u * (a * w))) with (a * ((1 - 1.02 * u) * w)) by ring. replace (a * w + 1.02 * (u * (a * w))) with (a * ((1 + 1.02 * u) * w)) by ring. split; apply Rmult_le_compat_l; lra. }
  assert (UA : 0 <= u * (a * w) <= u * 0.3) by (split; [apply Rmult_le_pos|apply Rmult_le_compat_l]; lra). assert (UT : 0 <= u * t0 <= u * 0.02) by (split; [apply Rmult_le_pos|apply Rmult_le_compat_l]; lra).
  assert (ST : Rabs (t * s - t0 * s) <= 0.2 * u). { replace (t * s - t0 * s) with ((t - t0) * s) by ring. rewrite Rabs_mult, (Rabs_pos_eq s) by lra. unfold rel in RT. apply Rle_trans with (2 * u * t0 * s); [apply Rmult_le_compat_r; lra|]. replace (2 * u * t0 * s) with (2 * (u * (t0 * s))) by ring. assert (u * (t0 * s) <= u * 0.1) by (apply Rmult_le_compat_l; lra). lra. }
  apply Rabs_le_inv in ST. split; [lra|]. split; [apply Rabs_le; lra|].
  assert (Q : / g * (a * w) <= 12.9 * t0). { eapply Rle_trans; [|exact Hsl]. apply Rmult_le_compat_l; lra. }
  assert (/ g * (a * w') <= / g * (a * w + 1.02 * (u * (a * w)))) by (apply Rmult_le_compat_l; lra).
  assert (/ g * (u * (a * w)) <= 0.5 * (u * 0.3)) by (apply Rmult_le_compat; lra). lra.
Qed.
Lemma pow_lip_at t x y : rel (2 * u) t t0 -> t <= x <= y -> 0 <= a * Rpower y (/ g) - a * Rpower x (/ g) <= 13 * (y - x).
Proof.
  intros RT [A B]. destruct (joint_at t RT) as (J1 & _ & J3). pose proof p_range as PR. assert (A1 : 1.05 <= a <= 1.1) by lra.
  assert (SPL : forall z w, 0 < z -> 0 < w -> Rpower w (/ g) = Rpower z (/ g) * Rpower (w / z) (/ g)). { intros z w Z W. rewrite Rpower_mult_distr; [f_equal; field; lra|exact Z|apply Rmult_lt_0_compat; [exact W|apply Rinv_0_lt_compat, Z]]. }
  assert (X0 : 0 < Rpower x (/ g)) by apply exp_pos.
  split. { assert (Rpower x (/ g) <= Rpower y (/ g)) by (apply pow_le; lra). assert (a * Rpower x (/ g) <= a * Rpower y (/ g)) by (apply Rmult_le_compat_l; lra). lra. }
  assert (YX : y / x * x = y) by (field; lra). set (r := y / x) in *. assert (R0 : 1 <= r) by (apply (Rmult_le_reg_r x); lra).
  assert (XT : x / t * t = x) by (field; lra). set (q := x / t) in *. assert (Q0 : 1 <= q) by (apply (Rmult_le_reg_r t); lra).
  pose proof (bernoulli r (/ g) ltac:(lra) ltac:(lra)) as B1. pose proof (pow_above q (/ g) Q0 ltac:(lra)) as B2.
  rewrite (SPL x y) by lra. fold r. assert (E1 : a * (Rpower x (/ g) * Rpower r (/ g)) <= a * (Rpower x (/ g) * (1 + / g * (r - 1)))) by (apply Rmult_le_compat_l; [lra|]; apply Rmult_le_compat_l; lra).
  assert (E2 : / g * (a * Rpower x (/ g)) <= 13 * x).
  { rewrite (SPL t x) by lra. fold q. apply Rle_trans with (/ g * (a * (Rpower t (/ g) * q))); [repeat (apply Rmult_le_compat_l; [try lra; apply Rlt_le, exp_pos|]); exact B2|].
    replace (/ g * (a * (Rpower t (/ g) * q))) with (/ g * (a * Rpower t (/ g)) * q) by ring. apply Rle_trans with (13 * t * q); [apply Rmult_le_compat_r; lra|]. rewrite <- XT. lra. }
  assert (E3 : / g * (a * Rpower x (/ g)) * (r - 1) <= 13 * x * (r - 1)) by (apply Rmult_le_compat_r; lra). lra.
Qed.
Lemma joint : 0.0029 <= B2R ft0 <= 0.021 /\ Rabs (a * Rpower (B2R ft0) (/ g) - o - B2R ft0 * s) <= k + u /\ / g * (a * Rpower (B2R ft0) (/ g)) <= 13 * B2R ft0.
Proof. exact (joint_at _ Rt0). Qed.
Lemma pow_lip x y : B2R ft0 <= x <= y -> 0 <= a * Rpower y (/ g) - a * Rpower x (/ g) <= 13 * (y - x).
Proof. exact (pow_lip_at _ x y Rt0). Qed.
Lemma enc_near d v d' v' e : is_finite d = true -> is_finite v = true -> 0 <= B2R d <= 1.05 -> 0 <= e <= 0.001 -> Rabs (B2R v - B2R d) <= e ->
  (B2R d <= B2R ft0 /\ d' = elin d) \/ (B2R ft0 <= B2R d /\ d' = epow d) ->
  (B2R v <= B2R ft0 /\ v' = elin v) \/ (B2R ft0 <= B2R v /\ v' = epow v) ->
  is_finite v' = true /\ Rabs (B2R v' - B2R d') <= 13 * e + k + 60 * u.
Proof.
  intros Fd Fv Hd He' Hv DC VC. destruct joint as (J1 & J2 & _). destruct u24 as [U0 U]. pose proof k_pos as K0. apply Rabs_le_inv in Hv. apply Rabs_le_inv in J2.
  destruct DC as [[C1 ->]|[C1 ->]]; destruct VC as [[C2 ->]|[C2 ->]].
  - destruct (elin_abs d Fd ltac:(apply Rabs_le; lra)) as [_ E1]. destruct (elin_abs v Fv ltac:(apply Rabs_le; lra)) as [G E2]. split; [exact G|]. apply Rabs_le_inv in E1, E2.
    assert (S : Rabs (B2R v * s - B2R d * s) <= 13 * e). { replace (B2R v * s - B2R d * s) with (s * (B2R v - B2R d)) by ring. rewrite Rabs_mult, (Rabs_pos_eq s) by lra. apply Rmult_le_compat; try lra; [apply Rabs_pos|apply Rabs_le; lra]. }
    apply Rabs_le_inv in S. apply Rabs_le. lra.
  - destruct (elin_abs d Fd ltac:(apply Rabs_le; lra)) as [_ E1]. destruct (epow_abs v Fv ltac:(lra)) as [G E2]. split; [exact G|]. apply Rabs_le_inv in E1, E2.
    pose proof (pow_lip (B2R ft0) (B2R v) ltac:(lra)) as P.
    assert (S : 0 <= B2R ft0 * s - B2R d * s <= 13 * (B2R ft0 - B2R d)). { replace (B2R ft0 * s - B2R d * s) with (s * (B2R ft0 - B2R d)) by ring. split; [apply Rmult_le_pos|apply Rmult_le_compat_r]; lra. }
    apply Rabs_le. lra.
  - destruct (epow_abs d Fd ltac:(lra)) as [_ E1]. destruct (elin_abs v Fv ltac:(apply Rabs_le; lra)) as [G E2]. split; [exact G|]. apply Rabs_le_inv in E1, E2.
    pose proof (pow_lip (B2R ft0) (B2R d) ltac:(lra)) as P.
    assert (S : 0 <= B2R ft0 * s - B2R v * s <= 13 * (B2R ft0 - B2R v)). { replace (B2R ft0 * s - B2R v * s) with (s * (B2R ft0 - B2R v)) by ring. split; [apply Rmult_le_pos|apply Rmult_le_compat_r]; lra. }
    apply Rabs_le. lra.
  - destruct (epow_abs d Fd ltac:(lra)) as [_ E1]. destruct (epow_abs v Fv ltac:(lra)) as [G E2]. split; [exact G|]. apply Rabs_le_inv in E1, E2.
    destruct (Rle_dec (B2R d) (B2R v)) as [O|O].
    + pose proof (pow_lip (B2R d) (B2R v) ltac:(lra)). apply Rabs_le. lra.
    + pose proof (pow_lip (B2R v) (B2R d) ltac:(lra)). apply Rabs_le. lra.
Qed.
(* a decoder and an encoder that choose their pieces by comparing with the constants: there and back, and with a step of at most e in between *)
Definition stays1 (dec enc : fl -> fl) (E : R) (x : fl) : Prop := is_finite (enc (dec x)) = true /\ Rabs (B2R (enc (dec x)) - B2R x) <= E.
Definition moves1 (dec enc : fl -> fl) (E : R) (x : fl) : Prop := is_finite (dec x) = true /\ 0 <= B2R (dec x) <= 1.05 /\
  forall v e, is_finite v = true -> 0 <= e <= 0.001 -> Rabs (B2R v - B2R (dec x)) <= e -> is_finite (enc v) = true /\ Rabs (B2R (enc v) - B2R x) <= E + 13 * e.
Corollary curve_pair (dec enc : fl -> fl) :
  (forall x, is_finite x = true -> (B2R x <= B2R ft1 /\ dec x = dlin x) \/ (B2R ft1 <= B2R x /\ dec x = dpow x)) ->
  (forall d, is_finite d = true -> (B2R d <= B2R ft0 /\ enc d = elin d) \/ (B2R ft0 <= B2R d /\ enc d = epow d)) ->
  forall x, is_finite x = true -> 0 <= B2R x <= 1 -> stays1 dec enc (75 * u + 1.2 * k) x /\ moves1 dec enc (135 * u + 2.2 * k) x.
Proof.
  intros D E x F H. pose proof (D x F) as Dx. destruct (decoded x (dec x) F H Dx) as [Fd Bd]. destruct (curve x (dec x) _ F H Dx (E _ Fd)) as [G C]. split; [split; assumption|].
  split; [exact Fd|]. split; [exact Bd|]. intros v e Fv He' Hv. destruct (enc_near (dec x) v _ _ e Fd Fv Bd He' Hv (E _ Fd) (E _ Fv)) as [G2 N]. split; [exact G2|].
  replace (B2R (enc v) - B2R x) with ((B2R (enc v) - B2R (enc (dec x))) + (B2R (enc (dec x)) - B2R x)) by ring. eapply Rle_trans; [apply Rabs_triang|]. lra.
Qed.
(* ---- against the curve in exact arithmetic ---- *)
Lemma enc_exact v y v' z D : is_finite v = true -> -0.03 <= B2R v <= 1.1 -> Rabs (B2R v - y) <= D ->
  (B2R v <= B2R ft0 /\ v' = elin v) \/ (B2R ft0 <= B2R v /\ v' = epow v) ->
  (y <= t0 /\ z = y * s) \/ (t0 <= y /\ z = a * Rpower y (/ g) - o) ->
  is_finite v' = true /\ Rabs (B2R v' - z) <= 13 * D + k + 33 * u.
Proof.
  intros Fv Hv HD VC YC. destruct joint as (J1 & J2 & _). destruct u24 as [U0 U]. pose proof k_pos as K0. apply Rabs_le_inv in HD, J2. pose proof Hk as HK. apply Rabs_le_inv in HK.
  assert (R0 : rel (2 * u) t0 t0) by (apply rel_refl; lra). pose proof Rt0 as RT. apply Rabs_le_inv in RT. assert (UT : 0 <= u * t0 <= u * 0.02) by (split; [apply Rmult_le_pos|apply Rmult_le_compat_l]; lra).
  assert (S : forall p q, p <= q -> 0 <= q * s - p * s <= 13 * (q - p)). { intros p q H. replace (q * s - p * s) with (s * (q - p)) by ring. split; [apply Rmult_le_pos|apply Rmult_le_compat_r]; lra. }
  destruct VC as [[C1 ->]|[C1 ->]]; destruct YC as [[C2 ->]|[C2 ->]].
  - destruct (elin_abs v Fv ltac:(apply Rabs_le; lra)) as [G E]. split; [exact G|]. apply Rabs_le_inv in E. apply Rabs_le.
    destruct (Rle_dec (B2R v) y) as [O|O]; [pose proof (S (B2R v) y ltac:(lra))|pose proof (S y (B2R v) ltac:(lra))]; lra.
  - destruct (elin_abs v Fv ltac:(apply Rabs_le; lra)) as [G E]. split; [exact G|]. apply Rabs_le_inv in E. apply Rabs_le.
    pose proof (pow_lip_at t0 t0 y R0 ltac:(lra)) as P. destruct (Rle_dec (B2R v) t0) as [O|O]; [pose proof (S (B2R v) t0 ltac:(lra))|pose proof (S t0 (B2R v) ltac:(lra))]; lra.
  - destruct (epow_abs v Fv ltac:(lra)) as [G E]. split; [exact G|]. apply Rabs_le_inv in E. apply Rabs_le.
    pose proof (pow_lip (B2R ft0) (B2R v) ltac:(lra)) as P. destruct (Rle_dec y (B2R ft0)) as [O|O]; [pose proof (S y (B2R ft0) ltac:(lra))|pose proof (S (B2R ft0) y ltac:(lra))]; lra.
  - destruct (epow_abs v Fv ltac:(lra)) as [G E]. split; [exact G|]. apply Rabs_le_inv in E. apply Rabs_le.
    assert (M : exists t, rel (2 * u) t t0 /\ t <= t0 /\ t <= B2R ft0). { destruct (Rle_dec t0 (B2R ft0)); [exists t0|exists (B2R ft0)]; (split; [assumption|lra]). } destruct M as (t & Mt & M1 & M2).
    destruct (Rle_dec (B2R v) y) as [O|O]; [pose proof (pow_lip_at t (B2R v) y Mt ltac:(lra))|pose proof (pow_lip_at t y (B2R v) Mt ltac:(lra))]; lra.
Qed.
(* decoding, absolutely *)
Lemma pow_up g' x y : 1 <= g' -> 0 < x <= y -> 0 <= Rpower y g' - Rpower x g' <= g' * Rpower y g' * ((y - x) / y).
Proof.
  intros G [X Y]. assert (Z : x / y * y = x) by (field; lra). set (z := x / y) in *. assert (Z1 : 0 < z <= 1) by (split; [apply Rmult_lt_0_compat; [lra|apply Rinv_0_lt_compat; lra]|apply (Rmult_le_reg_r y); lra]).
  assert (I : 0 < / g' <= 1) by (split; [apply Rinv_0_lt_compat; lra|rewrite <- Rinv_1; apply Rinv_le; lra]).
  pose proof (bernoulli (Rpower z g') (/ g') (exp_pos _) ltac:(lra)) as B. rewrite Rpower_mult, Rinv_r, Rpower_1 in B by lra.
  assert (B' : g' * z <= g' + (Rpower z g' - 1)). { assert (g' * z <= g' * (1 + / g' * (Rpower z g' - 1))) by (apply Rmult_le_compat_l; lra). replace (g' * (1 + / g' * (Rpower z g' - 1))) with (g' + (Rpower z g' - 1)) in H by (field; lra). exact H. }
  assert (L : Rpower z g' <= 1) by (rewrite <- (rpower_1 g'); apply Rle_Rpower_l; lra). assert (XE : Rpower x g' = Rpower z g' * Rpower y g') by (rewrite Rpower_mult_distr by lra; rewrite Z; reflexivity). rewrite XE. assert (W : 0 < Rpower y g') by apply exp_pos. set (w := Rpower y g') in *.
  replace ((y - x) / y) with (1 - z) by (unfold z; field; lra). replace (w - Rpower z g' * w) with ((1 - Rpower z g') * w) by ring. split; [apply Rmult_le_pos; lra|].
  replace (g' * w * (1 - z)) with ((g' - g' * z) * w) by ring. apply Rmult_le_compat_r; lra.
Qed.
Lemma pow_lip_up g' x y : 1 <= g' <= 2.7 -> 0 < x <= y -> y <= 1.0001 -> 0 <= Rpower y g' - Rpower x g' <= 1.001 * g' * (y - x).
Proof.
  intros G [X Y] T. pose proof (pow_up g' x y ltac:(lra) ltac:(lra)) as P. split; [apply P|]. eapply Rle_trans; [apply P|].
  assert (E : Rpower y g' = y * Rpower y (g' - 1)) by (rewrite <- (Rpower_1 y) at 2 by lra; rewrite <- Rpower_plus; f_equal; ring).
  assert (Q : Rpower y (g' - 1) <= 1.001).
  { destruct (Rle_dec y 1) as [O|O]; [apply Rle_trans with (Rpower 1 (g' - 1)); [apply Rle_Rpower_l; lra|rewrite rpower_1; lra]|]. apply Rle_trans with (Rpower 1.0001 (g' - 1)); [apply Rle_Rpower_l; lra|]. apply Rle_trans with (Rpower 1.0001 (INR 2)); [apply Rle_Rpower; [lra|cbn; lra]|]. rewrite Rpower_pow by lra. lra. }
  rewrite E. replace (g' * (y * Rpower y (g' - 1)) * ((y - x) / y)) with (Rpower y (g' - 1) * (g' * (y - x))) by (field; lra). rewrite Rmult_assoc. apply Rmult_le_compat_r; [apply Rmult_le_pos; lra|exact Q].
Qed.
Lemma xlnx y g' : 0 < y <= 1.0001 -> 1 <= g' <= 2.7 -> Rabs (ln y) * Rpower y g' <= 1.
Proof.
  intros [Y T] G. assert (LB : forall z, 0 < z -> ln z <= z - 1). { intros z Z. pose proof (exp_ineq1_le (ln z)) as X. rewrite exp_ln in X by exact Z. lra. }
  assert (PY : Rpower y g' <= 1.001). { destruct (Rle_dec y 1) as [O|O]; [apply Rle_trans with (Rpower 1 g'); [apply Rle_Rpower_l; lra|rewrite rpower_1; lra]|]. apply Rle_trans with (Rpower 1.0001 g'); [apply Rle_Rpower_l; lra|]. apply Rle_trans with (Rpower 1.0001 (INR 3)); [apply Rle_Rpower; [lra|cbn; lra]|]. rewrite Rpower_pow by lra. lra. }
  assert (P0 : 0 < Rpower y g') by apply exp_pos.
  destruct (Rle_dec y 1) as [O|O].
  - assert (N : ln y <= 0) by (pose proof (LB y Y); lra). rewrite Rabs_left1 by exact N.
    assert (I : 0 < / y) by (apply Rinv_0_lt_compat, Y). pose proof (LB (/ y) I) as B. rewrite ln_Rinv in B by exact Y.
    assert (PL : Rpower y g' <= y). { replace g' with (1 + (g' - 1)) by ring. rewrite Rpower_plus, Rpower_1 by exact Y. rewrite <- (Rmult_1_r y) at 3. apply Rmult_le_compat_l; [lra|]. apply Rle_trans with (Rpower 1 (g' - 1)); [apply Rle_Rpower_l; lra|rewrite rpower_1; lra]. }
    apply Rle_trans with ((/ y - 1) * y); [apply Rmult_le_compat; lra|]. replace ((/ y - 1) * y) with (1 - y) by (field; lra). lra.
  - pose proof (LB y Y). assert (0 <= ln y) by (rewrite <- ln_1; left; apply ln_increasing; lra). rewrite Rabs_pos_eq by assumption. apply Rle_trans with (0.0001 * 1.001); [apply Rmult_le_compat; lra|lra].
Qed.
Lemma dpow_abs x : is_finite x = true -> B2R x <= 1 -> t0 * s * (1 - 4 * u) <= B2R x ->
  is_finite (dpow x) = true /\ Rabs (B2R (dpow x) - Rpower ((B2R x + o) / a) g) <= 29.2 * u.
Proof.
  intros F H1 H2. destruct u24 as [U0 U]. pose proof tiny_le as [T0 T]. assert (X0 : 0.039 <= B2R x) by (clear - U0 U Ht1 H2; nra).
  apply Rabs_le_inv in Ro1. assert (A1 : 1.05 <= a <= 1.1) by lra.
  assert (Y : 0.08 <= (B2R x + o) / a <= 1). { split; apply (Rmult_le_reg_r a); try lra; unfold Rdiv; rewrite Rmult_assoc, Rinv_l by lra; lra. }
  destruct (fplus x fo1 F Fo1 ltac:(lra)) as [F1 R1]. set (x1 := Bplus mode_NE x fo1) in *.
  set (x0 := B2R x + B2R fo1) in *. assert (X1 : 0.08 <= x0 <= 1.11) by (unfold x0; lra).
  pose proof (rel_div _ _ _ _ _ _ R1 Ra1 ltac:(lra) ltac:(lra) ltac:(lra) ltac:(lra)) as S3.
  set (y := (B2R x + o) / a) in *. set (y0 := x0 / a) in *. set (y1 := B2R x1 / B2R fa1) in *.
  assert (Y0 : Rabs (y0 - y) <= 1.24 * u). { unfold y0, y. replace (x0 / a - (B2R x + o) / a) with ((B2R fo1 - o) / a) by (unfold x0; field; lra). unfold Rdiv. rewrite Rabs_mult, (Rabs_pos_eq (/ a)) by (apply Rlt_le, Rinv_0_lt_compat; lra). apply Rle_trans with (1.3 * u * / 1.05); [apply Rmult_le_compat; [apply Rabs_pos|apply Rlt_le, Rinv_0_lt_compat; lra|apply Rabs_le; lra|apply Rinv_le; lra]|lra]. }
  apply Rabs_le_inv in Y0. pose proof (rel_bounds _ _ _ S3) as B3.
  assert (AP : 0 < B2R fa1) by (apply (rel_pos (3 * u) _ a); [lra|lra|exact Ra1]).
  assert (Y1 : 0.07 <= y1 <= 1.1) by (clear - B3 Y Y0 U0 U; nra).
  destruct (fdiv x1 fa1 F1 ltac:(lra) ltac:(apply rnd_below; fold y1; lra)) as [F2 E2]. fold y1 in E2. pose proof (rnd_rel y1 ltac:(lra)) as R2. rewrite <- E2 in R2. set (y2 := Bdiv mode_NE x1 fa1) in *.
  pose proof (rel_trans _ _ _ _ _ R2 S3 ltac:(lra) ltac:(lra) ltac:(lra)) as S4. unfold rel in S4. apply Rabs_le_inv in S4.
  assert (UY : 0 <= u * y0 <= u * 1.0001) by (split; [apply Rmult_le_pos|apply Rmult_le_compat_l]; lra).
  assert (DY : Rabs (B2R y2 - y) <= 6.5 * u) by (apply Rabs_le; lra). apply Rabs_le_inv in DY. assert (Y2 : 0.07 <= B2R y2 <= 1.0001) by lra.
  pose proof (rel_bounds _ _ _ Rg) as Bg. assert (G2 : 1.9 <= B2R fg <= 2.6) by (clear - Bg Hg U0 U; nra).
  assert (LN : Rabs (ln (B2R y2)) <= 3). { replace 3 with (INR 3) by (rewrite INR_IZR_INZ; reflexivity). apply (ln_bound 3). split; lra. }
  pose proof (rel_exponent (7.5 * u) _ g (B2R fg) (B2R y2) ltac:(apply Rabs_le; clear - Bg Hg U0; nra) (Rle_refl _) ltac:(split; [apply Rmult_le_pos; [lra|apply Rabs_pos]|]; apply Rle_trans with (7.5 * u * 3); [apply Rmult_le_compat_l; lra|lra])) as P1.
  assert (EQ : (/ 3) ^ 8 <= Rpower (B2R y2) (B2R fg)). { apply exp_neg. replace (INR 8) with 8 by (rewrite INR_IZR_INZ; reflexivity). apply Rabs_le_inv in LN. clear - LN G2. nra. }
  destruct (PW y2 fg F2 Fg ltac:(lra) ltac:(lra) ltac:(lra)) as [F3 P4]. unfold dpow. fold x1 y2. split; [exact F3|].
  pose proof (xlnx (B2R y2) g ltac:(lra) ltac:(lra)) as XL. unfold rel in P1, P4. set (r := B2R (pw y2 fg)) in *. set (p1 := Rpower (B2R y2) (B2R fg)) in *. set (p2 := Rpower (B2R y2) g) in *. set (p3 := Rpower y g) in *.
  assert (Q1 : Rabs (p1 - p2) <= 7.6 * u). { eapply Rle_trans; [exact P1|]. replace (1.01 * (7.5 * u * Rabs (ln (B2R y2))) * p2) with (1.01 * 7.5 * u * (Rabs (ln (B2R y2)) * p2)) by ring. assert (u * (Rabs (ln (B2R y2)) * p2) <= u * 1) by (apply Rmult_le_compat_l; lra). lra. }
  assert (Q2 : Rabs (p2 - p3) <= 16.4 * u).
  { unfold p2, p3. destruct (Rle_dec (B2R y2) y) as [O|O]; [pose proof (pow_lip_up g (B2R y2) y ltac:(lra) ltac:(lra) ltac:(lra)) as W; assert (g * (y - B2R y2) <= 2.5 * (6.5 * u)) by (apply Rmult_le_compat; lra)|pose proof (pow_lip_up g y (B2R y2) ltac:(lra) ltac:(lra) ltac:(lra)) as W; assert (g * (B2R y2 - y) <= 2.5 * (6.5 * u)) by (apply Rmult_le_compat; lra)]; apply Rabs_le; lra. }
  assert (P3 : 0 <= p3 <= 1). { split; [apply Rlt_le, exp_pos|]. unfold p3. rewrite <- (rpower_1 g). apply Rle_Rpower_l; lra. }
  apply Rabs_le_inv in Q1, Q2. assert (u * p1 <= u * 1.01) by (apply Rmult_le_compat_l; lra). apply Rabs_le_inv in P4. apply Rabs_le. lra.
Qed.
Lemma dec_exact x X d y : is_finite x = true -> 0 <= B2R x <= 1 -> 0 <= X <= 1 -> Rabs (B2R x - X) <= u -> 2 * u <= Rabs (X - t0 * s) ->
  (B2R x <= B2R ft1 /\ d = dlin x) \/ (B2R ft1 <= B2R x /\ d = dpow x) ->
  (X <= t0 * s /\ y = X / s) \/ (t0 * s <= X /\ y = Rpower ((X + o) / a) g) ->
  is_finite d = true /\ Rabs (B2R d - y) <= 32 * u /\ 0 <= y <= 1.
Proof.
  intros F Hx HX E K DC YC. destruct u24 as [U0 U]. destruct eta_le as [T0 T]. assert (A1 : 1.05 <= a <= 1.1) by lra. apply Rabs_le_inv in E. pose proof Rt1 as R1. apply Rabs_le_inv in R1. set (kn := t0 * s) in *.
  assert (UK : 0 <= u * kn <= u * 0.1) by (split; [apply Rmult_le_pos|apply Rmult_le_compat_l]; lra).
  destruct (Rle_dec X kn) as [O|O].
  - rewrite Rabs_left1 in K by lra. destruct DC as [[C ->]|[C ->]]; [|lra]. destruct YC as [[_ ->]|[C2 _]]; [|lra].
    destruct (dlin_ok x F Hx) as [G D]. split; [exact G|]. assert (I : 0 < / s <= 0.25). { split; [apply Rinv_0_lt_compat; lra|]. replace 0.25 with (/ 4) by lra. apply Rinv_le; lra. }
    assert (Q : 0 <= B2R x / s <= 0.25). { unfold Rdiv. split; [apply Rmult_le_pos; lra|]. apply Rle_trans with (1 * 0.25); [apply Rmult_le_compat; lra|lra]. }
    assert (Q2 : 0 <= X / s <= 0.25). { unfold Rdiv. split; [apply Rmult_le_pos; lra|]. apply Rle_trans with (1 * 0.25); [apply Rmult_le_compat; lra|lra]. }
    assert (Q3 : Rabs (B2R x / s - X / s) <= u). { replace (B2R x / s - X / s) with ((B2R x - X) * / s) by (field; lra). rewrite Rabs_mult, (Rabs_pos_eq (/ s)) by lra. apply Rle_trans with (u * 0.25); [apply Rmult_le_compat; try lra; [apply Rabs_pos|apply Rabs_le; lra]|lra]. }
    assert (u * (B2R x / s) <= u * 0.25) by (apply Rmult_le_compat_l; lra). apply Rabs_le_inv in D, Q3. split; [apply Rabs_le; lra|lra].
  - rewrite Rabs_pos_eq in K by lra. destruct DC as [[C ->]|[C ->]]; [lra|]. destruct YC as [[C2 _]|[_ ->]]; [lra|].
    destruct (dpow_abs x F ltac:(lra) ltac:(fold kn; lra)) as [G D]. split; [exact G|]. apply Rabs_le_inv in D.
    assert (I : 0 < / a <= 0.953). { split; [apply Rinv_0_lt_compat; lra|]. apply Rle_trans with (/ 1.05); [apply Rinv_le; lra|]. apply (Rmult_le_reg_r 1.05); [lra|]. rewrite Rinv_l by lra. lra. }
    assert (B : forall q, 0.03 <= q <= 1 -> 0 < (q + o) / a <= 1). { intros q Q. unfold Rdiv. split; [apply Rmult_lt_0_compat; lra|]. apply (Rmult_le_reg_r a); [lra|]. rewrite Rmult_assoc, Rinv_l by lra. lra. }
    pose proof (B (B2R x) ltac:(lra)) as B1. pose proof (B X ltac:(lra)) as B2. set (p := (B2R x + o) / a) in *. set (q := (X + o) / a) in *.
    assert (PQ : Rabs (p - q) <= 0.953 * u). { replace (p - q) with ((B2R x - X) * / a) by (unfold p, q; field; lra). rewrite Rabs_mult, (Rabs_pos_eq (/ a)) by lra. rewrite (Rmult_comm 0.953). apply Rmult_le_compat; try lra; [apply Rabs_pos|apply Rabs_le; lra]. } apply Rabs_le_inv in PQ.
    assert (PG : Rabs (Rpower p g - Rpower q g) <= 2.4 * u).
    { destruct (Rle_dec p q) as [V|V]; [pose proof (pow_lip_up g p q ltac:(lra) ltac:(lra) ltac:(lra)) as W; assert (g * (q - p) <= 2.5 * (0.953 * u)) by (apply Rmult_le_compat; lra)|pose proof (pow_lip_up g q p ltac:(lra) ltac:(lra) ltac:(lra)) as W; assert (g * (p - q) <= 2.5 * (0.953 * u)) by (apply Rmult_le_compat; lra)]; apply Rabs_le; lra. }
    apply Rabs_le_inv in PG. split; [apply Rabs_le; lra|]. split; [apply Rlt_le, exp_pos|]. rewrite <- (rpower_1 g). apply Rle_Rpower_l; lra.
Qed.
(* values beyond 1 *)
Definition powf_wide : Prop := forall x y, is_finite x = true -> is_finite y = true -> 1 <= B2R x <= 16 -> 0 <= B2R y <= 1 ->
  is_finite (pw x y) = true /\ rel (4 * u) (B2R (pw x y)) (Rpower (B2R x) (B2R y)).
Context (PV : powf_wide).
Lemma grows x p : 1.08 <= x -> 0.36 <= p <= 1 -> 1.025 <= Rpower x p.
Proof.
  intros X P. apply Rle_trans with (Rpower 1.08 0.36).
  - unfold Rpower. assert (L : 0.074 <= ln 1.08). { pose proof (exp_ineq1_le (ln (/ 1.08))) as B. rewrite exp_ln in B by (apply Rinv_0_lt_compat; lra). rewrite ln_Rinv in B by lra. assert (/ 1.08 <= 0.926) by (apply (Rmult_le_reg_r 1.08); [lra|]; rewrite Rinv_l by lra; lra). lra. } pose proof (exp_ineq1_le (0.36 * ln 1.08)). lra.
  - apply Rle_trans with (Rpower 1.08 p); [apply Rle_Rpower; lra|apply Rle_Rpower_l; lra].
Qed.
Lemma wide_up v p : is_finite v = true -> is_finite p = true -> 1.08 <= B2R v <= 16 -> 0.36 <= B2R p <= 1 -> is_finite (pw v p) = true /\ 1.0249 <= B2R (pw v p) <= 16.1.
Proof.
  intros Fv Fp' V P. destruct u24 as [U0 U]. destruct (PV v p Fv Fp' ltac:(lra) ltac:(lra)) as [F R]. split; [exact F|]. apply rel_bounds in R.
  pose proof (grows (B2R v) (B2R p) ltac:(lra) P) as G. pose proof (pow_above (B2R v) (B2R p) ltac:(lra) ltac:(lra)) as A. set (w := Rpower (B2R v) (B2R p)) in *. assert (0 <= u * w <= / 10000000 * 16) by (split; [apply Rmult_le_pos|apply Rmult_le_compat]; lra). lra.
Qed.
Lemma epow_up v : is_finite v = true -> 1.08 <= B2R v <= 16 -> is_finite (epow v) = true /\ 1 <= B2R (epow v).
Proof.
  intros F V. destruct u24 as [U0 U]. pose proof tiny_le as [T0 T]. pose proof p_range as PR. pose proof (rel_bounds _ _ _ Rp) as Bp. assert (P2 : 0.39 <= B2R fp <= 0.51) by (clear - Bp PR U0 U; nra).
  destruct (wide_up v fp F Fp V ltac:(lra)) as [F1 W]. pose proof (rel_bounds _ _ _ Ra2) as Ba. assert (A1 : 1.05 <= a <= 1.1) by lra. assert (UA : 0 <= u * a <= / 10000000 * 1.1) by (split; [apply Rmult_le_pos|apply Rmult_le_compat]; lra).
  set (q := pw v fp) in *. assert (M : 1.0248 * a <= B2R fa2 * B2R q <= 20). { split; [|apply Rle_trans with (1.11 * 16.1); [apply Rmult_le_compat; lra|lra]]. apply Rle_trans with (B2R fa2 * 1.0249); [lra|apply Rmult_le_compat_l; lra]. }
  destruct (fmul fa2 q Fa2 F1 ltac:(lra)) as [F2 R2]. apply rel_bounds in R2. set (m := Bmult mode_NE fa2 q) in *. set (mm := B2R fa2 * B2R q) in *. assert (UM : 0 <= u * mm <= / 10000000 * 20) by (split; [apply Rmult_le_pos|apply Rmult_le_compat]; lra).
  pose proof Ro2 as RO. apply Rabs_le_inv in RO. destruct (fminus m fo2 F2 Fo2 ltac:(apply Rabs_le; lra)) as [F3 R3]. unfold epow. fold q m. split; [exact F3|].
  rewrite (Rabs_pos_eq (B2R m - B2R fo2)) in R3 by lra. apply Rabs_le_inv in R3. assert (u * (B2R m - B2R fo2) <= / 10000000 * 21) by (apply Rmult_le_compat; lra). lra.
Qed.
Lemma elin_low v : is_finite v = true -> -16 <= B2R v <= 0 -> is_finite (elin v) = true /\ B2R (elin v) <= 0.
Proof.
  intros F V. destruct u24 as [U0 U]. destruct eta_le as [T0 T]. pose proof huge as G. pose proof (rel_bounds _ _ _ Rs) as B. assert (SB : 0 <= B2R fs <= 13.1) by (clear - B Hs U0 U; nra).
  assert (M : -300 <= B2R v * B2R fs <= 0) by (clear - V SB; nra). pose proof (rnd_any prec emax (B2R v * B2R fs)) as R. set (m := B2R v * B2R fs) in *.
  assert (UM : u * Rabs m <= / 10000000 * 300) by (apply Rmult_le_compat; [lra|apply Rabs_pos|lra|apply Rabs_le; lra]).
  assert (F' : is_finite (elin v) = true). { apply mult_small; try assumption. fold m. replace (rnd m) with (m + (rnd m - m)) by ring. eapply Rle_lt_trans; [apply Rabs_triang|]. assert (Rabs m <= 300) by (apply Rabs_le; lra). lra. }
  split; [exact F'|]. unfold elin in *. apply mult_fin in F'. destruct F' as (_ & _ & E). rewrite E. fold m. rewrite <- (round_0 radix2 (SpecFloat.fexp prec emax) ZnearestE). apply round_le; [apply fexp_correct; exact Hp|apply valid_rnd_N|apply M].
Qed.
(* decoder and encoder against the exact curve *)
Definition near_exact (dec enc : fl -> fl) (decR encR : R -> R) (kn j : R) : Prop :=
  (forall x X, is_finite x = true -> 0 <= B2R x <= 1 -> 0 <= X <= 1 -> Rabs (B2R x - X) <= u -> 2 * u <= Rabs (X - kn) -> is_finite (dec x) = true /\ Rabs (B2R (dec x) - decR X) <= 32 * u /\ 0 <= decR X <= 1) /\
  (forall v y D, is_finite v = true -> Rabs y <= 5 -> D <= 0.001 -> Rabs (B2R v - y) <= D -> is_finite (enc v) = true /\
    (Rabs (B2R (enc v) - encR y) <= 13 * D + j + 33 * u \/ (B2R (enc v) <= 0 /\ encR y <= 0) \/ (1 <= B2R (enc v) /\ 1 <= encR y))).
Corollary curve_exact (dec enc : fl -> fl) (decR encR : R -> R) :
  (forall x, is_finite x = true -> (B2R x <= B2R ft1 /\ dec x = dlin x) \/ (B2R ft1 <= B2R x /\ dec x = dpow x)) ->
  (forall d, is_finite d = true -> (B2R d <= B2R ft0 /\ enc d = elin d) \/ (B2R ft0 <= B2R d /\ enc d = epow d)) ->
  (forall X, (X <= t0 * s /\ decR X = X / s) \/ (t0 * s <= X /\ decR X = Rpower ((X + o) / a) g)) ->
  (forall y, (y <= t0 /\ encR y = y * s) \/ (t0 <= y /\ encR y = a * Rpower y (/ g) - o)) ->
  near_exact dec enc decR encR (t0 * s) k.
Proof.
  intros D E DR ER. split.
  - intros x X F Hx HX XX K. exact (dec_exact x X (dec x) (decR X) F Hx HX XX K (D x F) (DR X)).
  - intros v y De F Hy HD HV. pose proof HV as HV'. apply Rabs_le_inv in HV'. apply Rabs_le_inv in Hy. destruct joint as (J1 & _ & _). pose proof p_range as PR.
    destruct (Rlt_dec (B2R v) (-0.03)) as [V|V]; [|destruct (Rlt_dec 1.1 (B2R v)) as [V2|V2]].
    + destruct (E v F) as [[_ ->]|[C _]]; [|lra]. destruct (elin_low v F ltac:(lra)) as [G L]. split; [exact G|]. right. left. split; [exact L|]. destruct (ER y) as [[_ ->]|[C _]]; [|lra]. rewrite <- (Rmult_0_l s). apply Rmult_le_compat_r; lra.
    + destruct (E v F) as [[C _]|[_ ->]]; [lra|]. destruct (epow_up v F ltac:(lra)) as [G L]. split; [exact G|]. right. right. split; [exact L|]. destruct (ER y) as [[C _]|[_ ->]]; [lra|]. pose proof (grows y (/ g) ltac:(lra) ltac:(lra)) as W.
      assert (a * 1 <= a * Rpower y (/ g)) by (apply Rmult_le_compat_l; lra). lra.
    + destruct (enc_exact v y (enc v) (encR y) De F ltac:(lra) HV (E v F) (ER y)) as [G L]. split; [exact G|]. left. exact L.
Qed.
End C.

(* a pure power and its inverse *)
Section P.
Context (prec emax : Z) {Hp : Prec_gt_0 prec} {He : Prec_lt_emax prec emax}.
Notation fl := (binary_float prec emax).
Notation u := (bpow radix2 (- prec)).
Notation tiny := (bpow radix2 (2 - emax)).
Context (P5 : (24 <= prec)%Z) (E5 : (128 <= emax)%Z).
Lemma tiny2 : tiny <= (/ 3) ^ 40.
Proof. apply Rle_trans with (bpow radix2 (-100)); [apply bpow_le; lia|]. change (bpow radix2 (-100)) with (/ 1267650600228229401496703205376). rewrite pow_inv. apply Rinv_le; [lra|]. lra. Qed.
(* powf of either zero and a positive exponent is a zero *)
Definition powf_zero (pw : fl -> fl -> fl) : Prop := forall x y, is_finite x = true -> is_finite y = true -> B2R x = 0 -> 0 < B2R y -> is_finite (pw x y) = true /\ B2R (pw x y) = 0.
Context (pw : fl -> fl -> fl) (PW : powf_ok prec emax pw) (PZ : powf_zero pw).
Context (g : R) (Hg : 2 <= g <= 2.7) (fg fp : fl) (Fg : is_finite fg = true) (Fp : is_finite fp = true) (Rg : rel (2 * u) (B2R fg) g) (Rp : rel (3 * u) (B2R fp) (/ g)).
Theorem power_curve x : is_finite x = true -> B2R x = 0 \/ / 70000 <= B2R x <= 1 ->
  is_finite (pw (pw x fg) fp) = true /\ Rabs (B2R (pw (pw x fg) fp) - B2R x) <= 95 * u.
Proof.
  intros F H. destruct (u24 prec P5) as [U0 U]. pose proof (rel_bounds _ _ _ Rg) as Bg. pose proof (rel_bounds _ _ _ Rp) as Bp.
  assert (PR : 0.37 <= / g <= 0.5). { split; [apply Rle_trans with (/ 2.7); [lra|]|replace 0.5 with (/ 2) by lra]; apply Rinv_le; lra. }
  assert (G2 : 1.9 <= B2R fg <= 2.71) by (clear - Bg Hg U0 U; nra). assert (P2 : 0.36 <= B2R fp <= 0.51) by (clear - Bp PR U0 U; nra). pose proof tiny2 as TN.
  destruct H as [Z|H].
  { destruct (PZ x fg F Fg Z ltac:(lra)) as [F1 Z1]. destruct (PZ _ fp F1 Fp Z1 ltac:(lra)) as [F2 Z2]. split; [exact F2|]. rewrite Z2, Z. replace (0 - 0) with 0 by ring. rewrite Rabs_R0. lra. }
  assert (LN : Rabs (ln (B2R x)) <= 12). { replace 12 with (INR 12) by (rewrite INR_IZR_INZ; reflexivity). apply (ln_bound 12). split; lra. }
  assert (EQ : (/ 3) ^ 33 <= Rpower (B2R x) (B2R fg)). { apply exp_neg. replace (INR 33) with 33 by (rewrite INR_IZR_INZ; reflexivity). apply Rabs_le_inv in LN. clear - LN G2. nra. }
  destruct (PW x fg F Fg ltac:(lra) ltac:(lra)) as [F1 R1]. { eapply Rle_trans; [exact TN|]. eapply Rle_trans; [|exact EQ]. lra. }
  pose proof (rel_exponent (5.4 * u) 12 g (B2R fg) (B2R x) ltac:(apply Rabs_le; clear - Bg Hg U0; nra) LN ltac:(lra)) as X1.
  pose proof (rel_trans _ _ _ _ _ R1 X1 ltac:(lra) ltac:(lra) (Rlt_le _ _ (exp_pos _))) as X2.
  assert (X3 : rel (71 * u) (B2R (pw x fg)) (Rpower (B2R x) g)) by (eapply rel_weaken; [exact X2|lra|apply Rlt_le, exp_pos]). set (d := pw x fg) in *.
  assert (E0 : 0 < Rpower (B2R x) g) by apply exp_pos. assert (E1 : Rpower (B2R x) g <= 1). { rewrite <- (rpower_1 g). apply Rle_Rpower_l; lra. }
  pose proof (rel_bounds _ _ _ X3) as B3. assert (D0 : 0 < B2R d <= 1.1) by (clear - B3 E0 E1 U0 U; nra).
  assert (LD : Rabs (ln (B2R d)) <= 33).
  { set (r := B2R d / Rpower (B2R x) g). assert (RB : 1 - 71 * u <= r <= 1 + 71 * u). { unfold r. split; apply (Rmult_le_reg_r (Rpower (B2R x) g)); try exact E0; unfold Rdiv; rewrite Rmult_assoc, Rinv_l by lra; lra. }
    pose proof (ln_near r (71 * u) ltac:(lra) RB) as LR. assert (DE : B2R d = Rpower (B2R x) g * r) by (unfold r; field; lra). rewrite DE, ln_mult by lra. unfold Rpower at 1. rewrite ln_exp.
    eapply Rle_trans; [apply Rabs_triang|]. rewrite Rabs_mult, (Rabs_pos_eq g) by lra. assert (g * Rabs (ln (B2R x)) <= 2.7 * 12) by (apply Rmult_le_compat; try lra; apply Rabs_pos). lra. }
  assert (EQ2 : (/ 3) ^ 17 <= Rpower (B2R d) (B2R fp)). { apply exp_neg. replace (INR 17) with 17 by (rewrite INR_IZR_INZ; reflexivity). apply Rabs_le_inv in LD. clear - LD P2. nra. }
  destruct (PW d fp F1 Fp ltac:(lra) ltac:(lra)) as [F2 R2]. { eapply Rle_trans; [exact TN|]. eapply Rle_trans; [|exact EQ2]. lra. }
  split; [exact F2|].
  pose proof (rel_exponent (1.5 * u) 33 (/ g) (B2R fp) (B2R d) ltac:(apply Rabs_le; clear - Bp PR U0; nra) LD ltac:(lra)) as Y1.
  pose proof (rel_pow _ (/ g) _ _ X3 ltac:(lra) ltac:(lra) E0) as Y2. rewrite Rpower_mult in Y2. replace (g * / g) with 1 in Y2 by (field; lra). rewrite Rpower_1 in Y2 by lra.
  assert (Y3 : rel (37 * u) (Rpower (B2R d) (/ g)) (B2R x)). { eapply rel_weaken; [exact Y2| |lra]. clear - PR U0. nra. }
  pose proof (rel_trans _ _ _ _ _ Y1 Y3 ltac:(lra) ltac:(lra) ltac:(lra)) as Y4. pose proof (rel_trans _ _ _ _ _ R2 Y4 ltac:(lra) ltac:(lra) ltac:(lra)) as Y5.
  unfold rel in Y5. eapply Rle_trans; [exact Y5|]. assert (u * B2R x <= u * 1) by (apply Rmult_le_compat_l; lra). lra.
Qed.
(* powf of a negative number and an exponent strictly between 0 and 1 is NaN *)
Definition powf_neg (pw : fl -> fl -> fl) : Prop := forall x y, is_finite x = true -> is_finite y = true -> B2R x < 0 -> 0 < B2R y < 1 -> is_nan (pw x y) = true.
Context (PN : powf_neg pw) (E6 : IZR (emax + prec) * u <= / 10000) (E7 : (2 * prec <= emax)%Z).
Lemma least (v : fl) : is_finite v = true -> 0 < B2R v -> bpow radix2 (SpecFloat.emin prec emax) <= B2R v.
Proof.
  intros F V. rewrite <- (Rabs_pos_eq (B2R v)) by lra. apply (abs_B2R_ge_emin prec emax). destruct v; try discriminate; [cbn in V; lra|reflexivity].
Qed.
Lemma power_decoded x : is_finite x = true -> B2R x = 0 \/ / 70000 <= B2R x <= 1 ->
  is_finite (pw x fg) = true /\ 0 <= B2R (pw x fg) <= 1 + 4 * u /\ (B2R x = 0 -> B2R (pw x fg) = 0) /\ (B2R x <> 0 -> rel (71 * u) (B2R (pw x fg)) (Rpower (B2R x) g)).
Proof.
  intros F H. destruct (u24 prec P5) as [U0 U]. pose proof (rel_bounds _ _ _ Rg) as Bg. assert (G2 : 1.9 <= B2R fg <= 2.71) by (clear - Bg Hg U0 U; nra). pose proof tiny2 as TN.
  destruct H as [Z|H]. { destruct (PZ x fg F Fg Z ltac:(lra)) as [F1 Z1]. split; [exact F1|]. rewrite Z1. split; [lra|]. split; [reflexivity|]. intro N. contradiction. }
  assert (LN : Rabs (ln (B2R x)) <= 12). { replace 12 with (INR 12) by (rewrite INR_IZR_INZ; reflexivity). apply (ln_bound 12). split; lra. }
  assert (EQ : (/ 3) ^ 33 <= Rpower (B2R x) (B2R fg)). { apply exp_neg. replace (INR 33) with 33 by (rewrite INR_IZR_INZ; reflexivity). apply Rabs_le_inv in LN. clear - LN G2. nra. }
  destruct (PW x fg F Fg ltac:(lra) ltac:(lra)) as [F1 R1]. { eapply Rle_trans; [exact TN|]. eapply Rle_trans; [|exact EQ]. lra. }
  assert (E1 : Rpower (B2R x) (B2R fg) <= 1). { rewrite <- (rpower_1 (B2R fg)). apply Rle_Rpower_l; lra. } assert (E0 : 0 < Rpower (B2R x) (B2R fg)) by apply exp_pos.
  pose proof (rel_bounds _ _ _ R1) as B1. split; [exact F1|]. split; [clear - B1 E0 E1 U0 U; nra|]. split; [lra|]. intros _.
  pose proof (rel_exponent (5.4 * u) 12 g (B2R fg) (B2R x) ltac:(apply Rabs_le; clear - Bg Hg U0; nra) LN ltac:(lra)) as X1.
  pose proof (rel_trans _ _ _ _ _ R1 X1 ltac:(lra) ltac:(lra) (Rlt_le _ _ (exp_pos _))) as X2. eapply rel_weaken; [exact X2|lra|apply Rlt_le, exp_pos].
Qed.
(* decode, move by at most D relative and c absolute, encode; lo is the least positive code *)
Theorem power_near x v D c lo E : is_finite x = true -> / 70000 <= lo -> B2R x = 0 \/ lo <= B2R x <= 1 -> is_finite v = true -> 0 <= D <= / 10000 -> 0 <= c <= 1 -> c <= Rpower lo g / 2 ->
  Rabs (B2R v - B2R (pw x fg)) <= D * B2R (pw x fg) + c -> (0 < c -> 1.001 * Rpower c (/ g) <= E) -> 1.001 * D + 180 * u + c * Rpower lo (1 - g) <= E ->
  (B2R x = 0 /\ is_nan (pw v fp) = true) \/ (is_finite (pw v fp) = true /\ Rabs (B2R (pw v fp) - B2R x) <= E).
Proof.
  intros F LO H Fv HD Hc Hcl HV HE1 HE2. destruct (u24 prec P5) as [U0 U]. pose proof (rel_bounds _ _ _ Rp) as Bp.
  assert (PR : 0.37 <= / g <= 0.5). { split; [apply Rle_trans with (/ 2.7); [lra|]|replace 0.5 with (/ 2) by lra]; apply Rinv_le; lra. }
  assert (P2 : 0.36 <= B2R fp <= 0.51) by (clear - Bp PR U0 U; nra). pose proof tiny2 as TN.
  destruct (power_decoded x F) as (Fd & Bd & Zd & Rd). { destruct H; [left; assumption|right; lra]. }
  assert (CL : 0 <= c * Rpower lo (1 - g)) by (apply Rmult_le_pos; [lra|apply Rlt_le, exp_pos]).
  destruct H as [Z|H].
  - rewrite (Zd Z) in HV. rewrite Rmult_0_r, Rplus_0_l, Rminus_0_r in HV. rewrite Z, Rminus_0_r.
    destruct (Rtotal_order (B2R v) 0) as [V|[V|V]].
    + left. split; [reflexivity|]. apply PN; try assumption; lra.
    + right. destruct (PZ v fp Fv Fp V ltac:(lra)) as [F2 Z2]. split; [exact F2|]. rewrite Z2, Rabs_R0. lra.
    + right. rewrite Rabs_pos_eq in HV by lra. pose proof (least v Fv V) as LV. rewrite bpow_exp in LV.
      assert (L2 : 0 < ln (IZR radix2) <= 1). { change (IZR radix2) with 2. split; [rewrite <- ln_1; apply ln_increasing; lra|]. rewrite <- (ln_exp 1). apply Rlt_le, ln_increasing; [lra|]. pose proof exp1_lower. lra. }
      set (l2 := ln (IZR radix2)) in *. assert (LN : IZR (SpecFloat.emin prec emax) * l2 <= ln (B2R v)). { rewrite <- (ln_exp (_ * l2)). destruct LV as [LV|LV]; [left; apply ln_increasing; [apply exp_pos|exact LV]|right; f_equal; exact LV]. }
      assert (LU : ln (B2R v) <= 0). { rewrite <- ln_1. destruct (Req_dec (B2R v) 1) as [->|]; [lra|]. left. apply ln_increasing; lra. }
      unfold SpecFloat.emin in LN. rewrite !minus_IZR in LN. rewrite plus_IZR in E6. set (em := IZR emax) in *. set (pr := IZR prec) in *.
      assert (EM : 128 <= em) by (apply IZR_le; exact E5). assert (PM : 24 <= pr) by (apply IZR_le; exact P5). assert (E7' : 2 * pr <= em) by (apply IZR_le in E7; rewrite mult_IZR in E7; exact E7).
      assert (TP : tiny <= Rpower (B2R v) (B2R fp)).
      { rewrite bpow_exp. fold l2. unfold Rpower. rewrite minus_IZR. fold em. assert (X : (2 - em) * l2 <= B2R fp * ln (B2R v)).
        { apply Rle_trans with (B2R fp * ((3 - em - pr) * l2)); [|apply Rmult_le_compat_l; lra]. replace (B2R fp * ((3 - em - pr) * l2)) with (B2R fp * (3 - em - pr) * l2) by ring. apply Rmult_le_compat_r; [lra|].
          assert (B2R fp * (em + pr - 3) <= 0.51 * (em + pr - 3)) by (apply Rmult_le_compat_r; lra). lra. }
        destruct X as [X|X]; [left; apply exp_increasing, X|right; f_equal; exact X]. }
      destruct (PW v fp Fv Fp ltac:(lra) ltac:(lra) TP) as [F2 R2]. split; [exact F2|].
      assert (LA : Rabs (ln (B2R v)) <= em + pr). { apply Rabs_le. split; [|lra]. apply Rle_trans with ((3 - em - pr) * l2); [|exact LN]. assert ((em + pr - 3) * l2 <= (em + pr - 3) * 1) by (apply Rmult_le_compat_l; lra). lra. }
      pose proof (rel_exponent (1.5 * u) (em + pr) (/ g) (B2R fp) (B2R v) ltac:(apply Rabs_le; clear - Bp PR U0; nra) LA ltac:(split; [apply Rmult_le_pos; lra|lra])) as Y1.
      pose proof (rel_trans _ _ _ _ _ R2 Y1 ltac:(lra) ltac:(apply Rmult_le_pos; [lra|apply Rmult_le_pos; lra]) (Rlt_le _ _ (exp_pos _))) as Y2.
      assert (Y3 : rel 0.001 (B2R (pw v fp)) (Rpower (B2R v) (/ g))) by (eapply rel_weaken; [exact Y2|lra|apply Rlt_le, exp_pos]). apply rel_bounds in Y3.
      assert (V0 : 0 < Rpower (B2R v) (/ g)) by apply exp_pos. assert (V1 : Rpower (B2R v) (/ g) <= Rpower c (/ g)) by (apply Rle_Rpower_l; lra).
      rewrite Rabs_pos_eq by lra. specialize (HE1 ltac:(lra)). lra.
  - right. specialize (Rd ltac:(lra)). set (X := Rpower (B2R x) g) in *. assert (X0 : 0 < X) by apply exp_pos. assert (X1 : X <= 1). { unfold X. rewrite <- (rpower_1 g). apply Rle_Rpower_l; lra. }
    assert (XL : Rpower lo g <= X) by (apply Rle_Rpower_l; lra). set (d := B2R (pw x fg)) in *. pose proof Rd as Rd'. unfold rel in Rd'. apply rel_bounds in Rd.
    assert (CX : c / X * X = c) by (field; lra). set (q := c / X) in *. assert (Q0 : 0 <= q <= 0.5). { split; [apply Rmult_le_pos; [lra|apply Rlt_le, Rinv_0_lt_compat, X0]|]. apply (Rmult_le_reg_r X); lra. }
    set (t := 1.0001 * D + 71 * u + q). assert (T : 0 <= t <= 0.51) by (unfold t; lra).
    assert (VX : Rabs (B2R v - X) <= t * X).
    { replace (B2R v - X) with ((B2R v - d) + (d - X)) by ring. eapply Rle_trans; [apply Rabs_triang|]. unfold t. assert (D * d <= D * ((1 + 71 * u) * X)) by (apply Rmult_le_compat_l; lra). assert (D * (u * X) <= D * (/ 10000000 * X)) by (apply Rmult_le_compat_l; [lra|]; apply Rmult_le_compat_r; lra). assert (0 <= D * X) by (apply Rmult_le_pos; lra). lra. }
    apply Rabs_le_inv in VX. assert (TX : t * X <= 0.51 * X) by (apply Rmult_le_compat_r; lra). assert (V : 0 < B2R v <= 2) by lra.
    set (A := B2R v / X). assert (AX : A * X = B2R v) by (unfold A; field; lra). assert (AB : 1 - t <= A <= 1 + t) by (split; apply (Rmult_le_reg_r X); lra).
    assert (VP : Rpower (B2R v) (/ g) = B2R x * Rpower A (/ g)). { rewrite <- AX, Rmult_comm, <- Rpower_mult_distr by lra. f_equal. unfold X. rewrite Rpower_mult. replace (g * / g) with 1 by (field; lra). apply Rpower_1. lra. }
    assert (AP : 1 - t <= Rpower A (/ g) <= 1 + t).
    { split.
      - destruct (Rle_dec A 1) as [O|O]; [pose proof (pow_below A (/ g) ltac:(lra) ltac:(lra)); lra|]. assert (Rpower 1 (/ g) <= Rpower A (/ g)) by (apply Rle_Rpower_l; lra). rewrite rpower_1 in H0. lra.
      - destruct (Rle_dec A 1) as [O|O]; [|pose proof (pow_above A (/ g) ltac:(lra) ltac:(lra)); lra]. assert (Rpower A (/ g) <= Rpower 1 (/ g)) by (apply Rle_Rpower_l; lra). rewrite rpower_1 in H0. lra. }
    assert (LD : Rabs (ln (B2R v)) <= 34).
    { rewrite <- AX, ln_mult by lra. unfold X, Rpower. rewrite ln_exp. assert (LN : Rabs (ln (B2R x)) <= 12). { replace 12 with (INR 12) by (rewrite INR_IZR_INZ; reflexivity). apply (ln_bound 12). split; lra. }
      assert (LA : Rabs (ln A) <= 1). { replace 1 with (INR 1) by reflexivity. apply (ln_bound 1). split; lra. }
      eapply Rle_trans; [apply Rabs_triang|]. rewrite Rabs_mult, (Rabs_pos_eq g) by lra. assert (g * Rabs (ln (B2R x)) <= 2.7 * 12) by (apply Rmult_le_compat; try lra; apply Rabs_pos). lra. }
    assert (EQ2 : (/ 3) ^ 18 <= Rpower (B2R v) (B2R fp)). { apply exp_neg. replace (INR 18) with 18 by (rewrite INR_IZR_INZ; reflexivity). apply Rabs_le_inv in LD. clear - LD P2. nra. }
    destruct (PW v fp Fv Fp V ltac:(lra)) as [F2 R2]. { eapply Rle_trans; [exact TN|]. eapply Rle_trans; [|exact EQ2]. lra. }
    split; [exact F2|].
    pose proof (rel_exponent (1.5 * u) 34 (/ g) (B2R fp) (B2R v) ltac:(apply Rabs_le; clear - Bp PR U0; nra) LD ltac:(lra)) as Y1.
    pose proof (rel_trans _ _ _ _ _ R2 Y1 ltac:(lra) ltac:(lra) (Rlt_le _ _ (exp_pos _))) as Y2. assert (Y3 : rel (57 * u) (B2R (pw v fp)) (Rpower (B2R v) (/ g))) by (eapply rel_weaken; [exact Y2|lra|apply Rlt_le, exp_pos]).
    unfold rel in Y3. rewrite VP in Y3. set (r := B2R (pw v fp)) in *. set (w := Rpower A (/ g)) in *.
    assert (XW : B2R x * w <= 1 * 1.51) by (apply Rmult_le_compat; lra). assert (UXW : u * (B2R x * w) <= u * 1.51) by (apply Rmult_le_compat_l; lra).
    assert (S : Rabs (B2R x * w - B2R x) <= B2R x * t). { replace (B2R x * w - B2R x) with (B2R x * (w - 1)) by ring. rewrite Rabs_mult, (Rabs_pos_eq (B2R x)) by lra. apply Rmult_le_compat_l; [lra|]. apply Rabs_le. lra. }
    assert (XQ : B2R x * q <= c * Rpower lo (1 - g)).
    { assert (XG : B2R x = X * Rpower (B2R x) (1 - g)) by (unfold X; rewrite <- Rpower_plus; replace (g + (1 - g)) with 1 by ring; symmetry; apply Rpower_1; lra).
      assert (B2R x * q = c * Rpower (B2R x) (1 - g)). { rewrite XG at 1. rewrite <- CX. ring. } rewrite H0. apply Rmult_le_compat_l; [lra|].
      replace (1 - g) with (- (g - 1)) by ring. rewrite !Rpower_Ropp. apply Rinv_le; [apply exp_pos|]. apply Rle_Rpower_l; lra. }
    assert (XD : B2R x * (1.0001 * D + 71 * u) <= 1 * (1.0001 * D + 71 * u)) by (apply Rmult_le_compat_r; lra).
    replace (r - B2R x) with ((r - B2R x * w) + (B2R x * w - B2R x)) by ring. eapply Rle_trans; [apply Rabs_triang|]. replace (B2R x * t) with (B2R x * (1.0001 * D + 71 * u) + B2R x * q) in S by (unfold t; ring). lra.
Qed.
(* decoding, absolutely *)
Lemma power_abs x : is_finite x = true -> / 70000 <= B2R x <= 1 -> is_finite (pw x fg) = true /\ Rabs (B2R (pw x fg) - Rpower (B2R x) g) <= 9.6 * u.
Proof.
  intros F H. destruct (u24 prec P5) as [U0 U]. pose proof (rel_bounds _ _ _ Rg) as Bg. assert (G2 : 1.9 <= B2R fg <= 2.71) by (clear - Bg Hg U0 U; nra). pose proof tiny2 as TN.
  assert (LN : Rabs (ln (B2R x)) <= 12). { replace 12 with (INR 12) by (rewrite INR_IZR_INZ; reflexivity). apply (ln_bound 12). split; lra. }
  assert (EQ : (/ 3) ^ 33 <= Rpower (B2R x) (B2R fg)). { apply exp_neg. replace (INR 33) with 33 by (rewrite INR_IZR_INZ; reflexivity). apply Rabs_le_inv in LN. clear - LN G2. nra. }
  destruct (PW x fg F Fg ltac:(lra) ltac:(lra)) as [F1 R1]. { eapply Rle_trans; [exact TN|]. eapply Rle_trans; [|exact EQ]. lra. }
  assert (E1 : Rpower (B2R x) (B2R fg) <= 1). { rewrite <- (rpower_1 (B2R fg)). apply Rle_Rpower_l; lra. } split; [exact F1|].
  pose proof (rel_exponent (5.4 * u) _ g (B2R fg) (B2R x) ltac:(apply Rabs_le; clear - Bg Hg U0; nra) (Rle_refl _) ltac:(split; [apply Rmult_le_pos; [lra|apply Rabs_pos]|]; apply Rle_trans with (5.4 * u * 12); [apply Rmult_le_compat_l; lra|lra])) as X1.
  pose proof (xlnx (B2R x) g ltac:(lra) ltac:(lra)) as XL. unfold rel in R1, X1. set (r := B2R (pw x fg)) in *. set (p1 := Rpower (B2R x) (B2R fg)) in *. set (p2 := Rpower (B2R x) g) in *.
  assert (Q1 : Rabs (p1 - p2) <= 5.5 * u). { eapply Rle_trans; [exact X1|]. replace (1.01 * (5.4 * u * Rabs (ln (B2R x))) * p2) with (1.01 * 5.4 * u * (Rabs (ln (B2R x)) * p2)) by ring. assert (u * (Rabs (ln (B2R x)) * p2) <= u * 1) by (apply Rmult_le_compat_l; lra). lra. }
  assert (u * p1 <= u * 1) by (apply Rmult_le_compat_l; lra). apply Rabs_le_inv in Q1, R1. apply Rabs_le. lra.
Qed.
(* encoding any positive value up to 1.1 *)
Definition slack : R := 5 * u + 1.6 * (IZR (emax + prec) * u).
Lemma root_ok v : is_finite v = true -> 0 < B2R v <= 1.1 -> is_finite (pw v fp) = true /\ rel slack (B2R (pw v fp)) (Rpower (B2R v) (/ g)).
Proof.
  intros Fv V. destruct (u24 prec P5) as [U0 U]. pose proof (rel_bounds _ _ _ Rp) as Bp.
  assert (PR : 0.37 <= / g <= 0.5). { split; [apply Rle_trans with (/ 2.7); [lra|]|replace 0.5 with (/ 2) by lra]; apply Rinv_le; lra. }
  assert (P2 : 0.36 <= B2R fp <= 0.51) by (clear - Bp PR U0 U; nra).
  pose proof (least v Fv (proj1 V)) as LV. rewrite bpow_exp in LV.
  assert (L2 : 0 < ln (IZR radix2) <= 1). { change (IZR radix2) with 2. split; [rewrite <- ln_1; apply ln_increasing; lra|]. rewrite <- (ln_exp 1). apply Rlt_le, ln_increasing; [lra|]. pose proof exp1_lower. lra. }
  set (l2 := ln (IZR radix2)) in *. assert (LN : IZR (SpecFloat.emin prec emax) * l2 <= ln (B2R v)). { rewrite <- (ln_exp (_ * l2)). destruct LV as [LV|LV]; [left; apply ln_increasing; [apply exp_pos|exact LV]|right; f_equal; exact LV]. }
  assert (LU : ln (B2R v) <= 0.1). { pose proof (exp_ineq1_le (ln (B2R v))) as X. rewrite exp_ln in X by lra. lra. }
  unfold slack. pose proof E6 as E6'. unfold SpecFloat.emin in LN. rewrite !minus_IZR in LN. rewrite plus_IZR in E6' |- *. set (em := IZR emax) in *. set (pr := IZR prec) in *.
  assert (EM : 128 <= em) by (apply IZR_le; exact E5). assert (PM : 24 <= pr) by (apply IZR_le; exact P5). assert (E7' : 2 * pr <= em) by (pose proof (IZR_le _ _ E7) as Q; rewrite mult_IZR in Q; exact Q).
  assert (TP : tiny <= Rpower (B2R v) (B2R fp)).
  { rewrite bpow_exp. fold l2. unfold Rpower. rewrite minus_IZR. fold em. assert (X : (2 - em) * l2 <= B2R fp * ln (B2R v)).
    { apply Rle_trans with (B2R fp * ((3 - em - pr) * l2)); [|apply Rmult_le_compat_l; lra]. replace (B2R fp * ((3 - em - pr) * l2)) with (B2R fp * (3 - em - pr) * l2) by ring. apply Rmult_le_compat_r; [lra|].
      assert (B2R fp * (em + pr - 3) <= 0.51 * (em + pr - 3)) by (apply Rmult_le_compat_r; lra). lra. }
    destruct X as [X|X]; [left; apply exp_increasing, X|right; f_equal; exact X]. }
  destruct (PW v fp Fv Fp ltac:(lra) ltac:(lra) TP) as [F2 R2]. split; [exact F2|].
  assert (LA : Rabs (ln (B2R v)) <= em + pr). { apply Rabs_le. split; [|lra]. apply Rle_trans with ((3 - em - pr) * l2); [|exact LN]. assert ((em + pr - 3) * l2 <= (em + pr - 3) * 1) by (apply Rmult_le_compat_l; lra). lra. }
  pose proof (rel_exponent (1.5 * u) (em + pr) (/ g) (B2R fp) (B2R v) ltac:(apply Rabs_le; clear - Bp PR U0; nra) LA ltac:(split; [apply Rmult_le_pos; lra|lra])) as Y1.
  assert (UE : 0 <= (em + pr) * u) by (apply Rmult_le_pos; lra).
  pose proof (rel_trans _ _ _ _ _ R2 Y1 ltac:(lra) ltac:(lra) (Rlt_le _ _ (exp_pos _))) as Y2. eapply rel_weaken; [exact Y2|lra|apply Rlt_le, exp_pos].
Qed.
End P.
