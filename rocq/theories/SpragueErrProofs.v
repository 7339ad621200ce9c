(* interpolation.rs in floating point: rounding errors measured in units of the size of the samples *)
From Coq Require Import Reals ZArith QArith Qreals Lra Lia Bool List.
From Flocq Require Import Core BinarySingleNaN.
From Verif Require Import Outcome RealOps MathModel ColorModel InterpModel XReal FloatInst FloatProofs ErrProofs CurveProofs VspdProofs SpragueProofs.
Import ListNotations.
Open Scope R_scope.

Section N.
Context (prec emax : Z) {Hp : Prec_gt_0 prec} {He : Prec_lt_emax prec emax}.
Notation fl := (binary_float prec emax).
Notation u := (bpow radix2 (- prec)).
Notation eta := (bpow radix2 (2 - emax - prec)).
Notation tiny := (bpow radix2 (2 - emax)).
Notation rnd := (round radix2 (SpecFloat.fexp prec emax) ZnearestE).
Notation litd := (b_of_Q prec emax).
Context (P5 : (24 <= prec)%Z) (E5 : (128 <= emax)%Z).

(* ---- powers ---- *)
(* powi x n for n = 2..5 within a few half-units in the last place, and exact at zero *)
Definition powi5_ok (pi : fl -> Z -> fl) : Prop := forall x n, is_finite x = true -> Rabs (B2R x) <= 2 -> (2 <= n <= 5)%nat ->
  is_finite (pi x (Z.of_nat n)) = true
  /\ Rabs (B2R (pi x (Z.of_nat n)) - B2R x ^ n) <= 8 * u * Rabs (B2R x ^ n) + 128 * eta
  /\ (B2R x = 0 -> B2R (pi x (Z.of_nat n)) = 0).

(* the scale: a bound on the samples that is neither subnormal nor near overflow *)
Context (M : R) (M1 : tiny <= M) (M2 : M <= bpow radix2 (emax - 30)).

Lemma um : 0 < u * M /\ eta <= u * M /\ 0 < M.
Proof.
  destruct (CurveProofs.u24 prec P5) as [U0 _]. pose proof (bpow_gt_0 radix2 (2 - emax)) as T. assert (0 < M) by lra. split; [apply Rmult_lt_0_compat; lra|]. split; [|assumption].
  replace (2 - emax - prec)%Z with (- prec + (2 - emax))%Z by ring. rewrite bpow_plus. apply Rmult_le_compat_l; [lra|exact M1].
Qed.
Lemma below t : Rabs t <= 100000000 * M -> Rabs (rnd t) < bpow radix2 emax.
Proof.
  intro H. pose proof (rnd_any prec emax t) as R. destruct (CurveProofs.u24 prec P5) as [U0 U]. destruct um as (A & B & C). pose proof (Rabs_pos t).
  assert (u * Rabs t <= / 10000000 * (100000000 * M)) by (apply Rmult_le_compat; lra). assert (u * M <= / 10000000 * M) by (apply Rmult_le_compat_r; lra).
  assert (X : Rabs (rnd t) <= 100000011 * M). { replace (rnd t) with (t + (rnd t - t)) by ring. eapply Rle_trans; [apply Rabs_triang|]. lra. }
  eapply Rle_lt_trans; [exact X|]. replace emax with (30 + (emax - 30))%Z by ring. rewrite bpow_plus. change (bpow radix2 30) with 1073741824.
  pose proof (bpow_gt_0 radix2 (emax - 30)). assert (100000011 * M <= 100000011 * bpow radix2 (emax - 30)) by (apply Rmult_le_compat_l; lra). lra.
Qed.

(* [r] stands for [e], a number of size at most [a] times the scale, up to [c] units roundoff of the scale *)
Definition N (r : fl) (e a c : R) : Prop := is_finite r = true /\ Rabs e <= a * M /\ Rabs (B2R r - e) <= c * (u * M).

Lemma N_weak r e e' a a' c c' : N r e a c -> e = e' -> a <= a' -> c <= c' -> N r e' a' c'.
Proof.
  intros (F & A & C) <- HA HC. destruct um as (U & _ & P). split; [exact F|]. split; (eapply Rle_trans; [eassumption|]); apply Rmult_le_compat_r; lra.
Qed.
Lemma N_size r e a c : N r e a c -> Rabs (B2R r) <= a * M + c * (u * M).
Proof. intros (_ & A & C). replace (B2R r) with (e + (B2R r - e)) by ring. eapply Rle_trans; [apply Rabs_triang|]. lra. Qed.
Lemma N_exact (r : fl) : is_finite r = true -> Rabs (B2R r) <= M -> N r (B2R r) 1 0.
Proof. intros F H. split; [exact F|]. split; [lra|]. replace (B2R r - B2R r) with 0 by ring. rewrite Rabs_R0. lra. Qed.
Lemma N_opp r e a c : N r e a c -> N (Bopp r) (- e) a c.
Proof.
  intros (F & A & C). split; [rewrite is_finite_Bopp; exact F|]. split; [rewrite Rabs_Ropp; exact A|]. rewrite B2R_Bopp. replace (- B2R r - - e) with (- (B2R r - e)) by ring. rewrite Rabs_Ropp. exact C.
Qed.
(* one rounding of an intermediate value *)
Lemma N_round (r : fl) t e a c d : is_finite r = true -> B2R r = rnd t -> Rabs e <= a * M -> 0 <= a <= 1000000 -> 0 <= c <= 1000000 ->
  Rabs (t - e) <= c * (u * M) -> c + a + 2 <= d -> N r e a d.
Proof.
  intros F E A HA HC T D. destruct um as (U & B & P). destruct (CurveProofs.u24 prec P5) as [U0 U1]. split; [exact F|]. split; [exact A|]. rewrite E. pose proof (rnd_any prec emax t) as R.
  assert (S : Rabs t <= a * M + c * (u * M)). { replace t with (e + (t - e)) by ring. eapply Rle_trans; [apply Rabs_triang|]. lra. }
  assert (X : u * Rabs t <= u * (a * M + c * (u * M))) by (apply Rmult_le_compat_l; lra).
  assert (Y : u * (c * (u * M)) <= / 10000000 * (1000000 * (u * M))). { apply Rmult_le_compat; try lra; [apply Rmult_le_pos; lra|]. apply Rmult_le_compat_r; lra. }
  assert (Z : (c + a + 2) * (u * M) <= d * (u * M)) by (apply Rmult_le_compat_r; lra).
  replace (rnd t - e) with ((rnd t - t) + (t - e)) by ring. eapply Rle_trans; [apply Rabs_triang|]. lra.
Qed.
Lemma N_add r r' e e' a a' c c' : N r e a c -> N r' e' a' c' -> 0 <= a -> 0 <= a' -> 0 <= c -> 0 <= c' -> a + a' <= 1000000 -> c + c' <= 1000000 ->
  N (Bplus mode_NE r r') (e + e') (a + a') (c + c' + (a + a') + 2).
Proof.
  intros H H' A A' C C' S T. destruct um as (U & B & P). destruct (CurveProofs.u24 prec P5) as [U0 U1]. pose proof (N_size _ _ _ _ H) as Z. pose proof (N_size _ _ _ _ H') as Z'. destruct H as (F & HA & HC), H' as (F' & HA' & HC').
  assert (G : is_finite (Bplus mode_NE r r') = true).
  { apply plus_small; try assumption. apply below. eapply Rle_trans; [apply Rabs_triang|]. assert (u * M <= M) by (rewrite <- (Rmult_1_l M) at 2; apply Rmult_le_compat_r; lra).
    assert (a * M + a' * M <= 1000000 * M) by (rewrite <- Rmult_plus_distr_r; apply Rmult_le_compat_r; lra). assert (c * (u * M) + c' * (u * M) <= 1000000 * (u * M)) by (rewrite <- Rmult_plus_distr_r; apply Rmult_le_compat_r; lra). lra. }
  pose proof (plus_fin prec emax _ _ G) as (_ & _ & E). eapply (N_round _ _ _ _ (c + c')); [exact G|exact E| |lra|lra| |lra].
  - eapply Rle_trans; [apply Rabs_triang|]. lra.
  - replace (B2R r + B2R r' - (e + e')) with ((B2R r - e) + (B2R r' - e')) by ring. eapply Rle_trans; [apply Rabs_triang|]. lra.
Qed.
Lemma N_sub r r' e e' a a' c c' : N r e a c -> N r' e' a' c' -> 0 <= a -> 0 <= a' -> 0 <= c -> 0 <= c' -> a + a' <= 1000000 -> c + c' <= 1000000 ->
  N (Bminus mode_NE r r') (e - e') (a + a') (c + c' + (a + a') + 2).
Proof.
  intros H H' A A' C C' S T. destruct um as (U & B & P). destruct (CurveProofs.u24 prec P5) as [U0 U1]. pose proof (N_size _ _ _ _ H) as Z. pose proof (N_size _ _ _ _ H') as Z'. destruct H as (F & HA & HC), H' as (F' & HA' & HC').
  assert (Q : Rabs (B2R r - B2R r') <= 100000000 * M).
  { unfold Rminus. eapply Rle_trans; [apply Rabs_triang|]. rewrite Rabs_Ropp. assert (u * M <= M) by (rewrite <- (Rmult_1_l M) at 2; apply Rmult_le_compat_r; lra).
    assert (a * M + a' * M <= 1000000 * M) by (rewrite <- Rmult_plus_distr_r; apply Rmult_le_compat_r; lra). assert (c * (u * M) + c' * (u * M) <= 1000000 * (u * M)) by (rewrite <- Rmult_plus_distr_r; apply Rmult_le_compat_r; lra). lra. }
  pose proof (Bminus_correct prec emax _ _ mode_NE r r' F F') as D. cbn [round_mode] in D. rewrite Rlt_bool_true in D by (apply below, Q). destruct D as (E & G & _).
  eapply (N_round _ _ _ _ (c + c')); [exact G|exact E| |lra|lra| |lra].
  - unfold Rminus. eapply Rle_trans; [apply Rabs_triang|]. rewrite Rabs_Ropp. lra.
  - replace (B2R r - B2R r' - (e - e')) with ((B2R r - e) + - (B2R r' - e')) by ring. eapply Rle_trans; [apply Rabs_triang|]. rewrite Rabs_Ropp. lra.
Qed.
(* multiplication by a small integer *)
Lemma N_scale (k : fl) (z w : Z) r e a c : Z.abs z = w -> is_finite k = true -> B2R k = IZR z -> N r e a c -> 0 <= a -> 0 <= c -> IZR w * a <= 1000000 -> IZR w * c <= 1000000 ->
  N (Bmult mode_NE k r) (IZR z * e) (IZR w * a) (IZR w * c + IZR w * a + 2).
Proof.
  intros <- K V H A C S T. destruct um as (U & B & P). destruct (CurveProofs.u24 prec P5) as [U0 U1]. pose proof (N_size _ _ _ _ H) as Z. destruct H as (F & HA & HC).
  set (q := IZR (Z.abs z)) in *. assert (Q : q = Rabs (IZR z)) by (unfold q; apply abs_IZR). assert (Q0 : 0 <= q) by (rewrite Q; apply Rabs_pos).
  assert (G : is_finite (Bmult mode_NE k r) = true).
  { apply mult_small; try assumption. apply below. rewrite V, Rabs_mult, <- Q. assert (u * M <= M) by (rewrite <- (Rmult_1_l M) at 2; apply Rmult_le_compat_r; lra).
    assert (q * Rabs (B2R r) <= q * (a * M + c * (u * M))) by (apply Rmult_le_compat_l; assumption). assert (q * a * M <= 1000000 * M) by (apply Rmult_le_compat_r; lra). assert (q * c * (u * M) <= 1000000 * (u * M)) by (apply Rmult_le_compat_r; lra). lra. }
  pose proof (mult_fin prec emax _ _ G) as (_ & _ & E). rewrite V in E. assert (0 <= q * a) by (apply Rmult_le_pos; lra). assert (0 <= q * c) by (apply Rmult_le_pos; lra).
  eapply (N_round _ _ _ _ (q * c)); [exact G|exact E| |lra|lra| |lra].
  - rewrite Rabs_mult, <- Q, Rmult_assoc. apply Rmult_le_compat_l; assumption.
  - replace (IZR z * B2R r - IZR z * e) with (IZR z * (B2R r - e)) by ring. rewrite Rabs_mult, <- Q, Rmult_assoc. apply Rmult_le_compat_l; assumption.
Qed.
(* division by a positive integer *)
Lemma N_over (k : fl) (z : Z) r e a c : B2R k = IZR z -> (1 <= z)%Z -> N r e a c -> 0 <= a <= 1000000 -> 0 <= c <= 1000000 ->
  N (Bdiv mode_NE r k) (e / IZR z) (a / IZR z) (c / IZR z + a / IZR z + 2).
Proof.
  intros V Z1 H A C. destruct um as (U & B & P). destruct (CurveProofs.u24 prec P5) as [U0 U1]. pose proof (N_size _ _ _ _ H) as Z. destruct H as (F & HA & HC).
  assert (Z2 : 1 <= IZR z) by (apply (IZR_le 1), Z1). assert (I : 0 < / IZR z <= 1) by (split; [apply Rinv_0_lt_compat; lra|rewrite <- Rinv_1; apply Rinv_le; lra]). set (i := / IZR z) in *.
  assert (D : forall t w, 0 <= w -> Rabs t <= w -> Rabs (t * i) <= w * i) by (intros t w W T; rewrite Rabs_mult, (Rabs_pos_eq i) by lra; apply Rmult_le_compat_r; lra).
  assert (0 <= a * M) by (apply Rmult_le_pos; lra). assert (0 <= c * (u * M)) by (apply Rmult_le_pos; lra).
  destruct (fdiv prec emax r k F) as [G E]; [rewrite V; lra| |].
  { apply below. rewrite V. unfold Rdiv. fold i. eapply Rle_trans; [apply (D _ (a * M + c * (u * M))); [lra|exact Z]|].
    assert (u * M <= M) by (rewrite <- (Rmult_1_l M) at 2; apply Rmult_le_compat_r; lra). assert (a * M <= 1000000 * M) by (apply Rmult_le_compat_r; lra). assert (c * (u * M) <= 1000000 * (u * M)) by (apply Rmult_le_compat_r; lra).
    apply Rle_trans with ((a * M + c * (u * M)) * 1); [apply Rmult_le_compat_l; lra|lra]. }
  rewrite V in E. unfold Rdiv in *. fold i in E |- *. assert (0 <= a * i <= a * 1) by (split; [apply Rmult_le_pos; lra|apply Rmult_le_compat_l; lra]). assert (0 <= c * i <= c * 1) by (split; [apply Rmult_le_pos; lra|apply Rmult_le_compat_l; lra]).
  eapply (N_round _ _ _ _ (c * i)); [exact G|exact E| |lra|lra| |lra].
  - replace (a * i * M) with (a * M * i) by ring. apply D; assumption.
  - replace (B2R r * i - e * i) with ((B2R r - e) * i) by ring. replace (c * i * (u * M)) with (c * (u * M) * i) by ring. apply D; assumption.
Qed.
(* multiplication by an approximation of a number of [0, 1] *)
Lemma N_pow r e a c (p : fl) q k : N r e a c -> is_finite p = true -> Rabs (B2R p - q) <= k * u -> 0 <= q <= 1 -> 0 <= k <= 100 -> 0 <= a <= 1000 -> 0 <= c <= 100000 ->
  N (Bmult mode_NE r p) (e * q) a (c + k * a + a + 3).
Proof.
  intros H Fp HP Q K A C. destruct um as (U & B & P). destruct (CurveProofs.u24 prec P5) as [U0 U1]. pose proof (N_size _ _ _ _ H) as Z. destruct H as (F & HA & HC).
  assert (KU : k * u <= 100 * / 10000000) by (apply Rmult_le_compat; lra). assert (PP : Rabs (B2R p) <= 1 + k * u). { replace (B2R p) with (q + (B2R p - q)) by ring. eapply Rle_trans; [apply Rabs_triang|]. rewrite (Rabs_pos_eq q) by lra. lra. }
  assert (K0 : 0 <= k * u) by (apply Rmult_le_pos; lra). assert (AM : 0 <= a * M) by (apply Rmult_le_pos; lra). assert (CU : 0 <= c * (u * M)) by (apply Rmult_le_pos; lra).
  assert (UM : u * M <= / 10000000 * M) by (apply Rmult_le_compat_r; lra). assert (AM2 : a * M <= 1000 * M) by (apply Rmult_le_compat_r; lra). assert (CU2 : c * (u * M) <= 100000 * (u * M)) by (apply Rmult_le_compat_r; lra).
  assert (G : is_finite (Bmult mode_NE r p) = true).
  { apply mult_small; try assumption. apply below. rewrite Rabs_mult. apply Rle_trans with ((a * M + c * (u * M)) * 2); [apply Rmult_le_compat; try apply Rabs_pos; lra|lra]. }
  pose proof (mult_fin prec emax _ _ G) as (_ & _ & E). assert (KA : 0 <= k * a <= 100 * 1000) by (split; [apply Rmult_le_pos; lra|apply Rmult_le_compat; lra]).
  eapply (N_round _ _ _ _ (c + k * a + 1)); [exact G|exact E| |lra|lra| |lra].
  - rewrite Rabs_mult, (Rabs_pos_eq q) by lra. rewrite <- (Rmult_1_r (a * M)). apply Rmult_le_compat; try apply Rabs_pos; lra.
  - replace (B2R r * B2R p - e * q) with ((B2R r - e) * B2R p + e * (B2R p - q)) by ring. eapply Rle_trans; [apply Rabs_triang|]. rewrite !Rabs_mult.
    assert (X : Rabs (B2R r - e) * Rabs (B2R p) <= c * (u * M) * (1 + k * u)) by (apply Rmult_le_compat; try apply Rabs_pos; lra).
    assert (Y : Rabs e * Rabs (B2R p - q) <= a * M * (k * u)) by (apply Rmult_le_compat; try apply Rabs_pos; lra).
    assert (W : c * (u * M) * (k * u) <= u * M). { replace (c * (u * M) * (k * u)) with ((c * (k * u)) * (u * M)) by ring. rewrite <- (Rmult_1_l (u * M)) at 2. apply Rmult_le_compat_r; [lra|]. apply Rle_trans with (100000 * (100 * / 10000000)); [apply Rmult_le_compat; lra|lra]. }
    lra.
Qed.

Lemma lit_at q z : Q2R q = IZR z -> (Z.abs z <= 2 ^ 24)%Z -> is_finite (litd q) = true /\ B2R (litd q) = IZR z.
Proof. intros E H. destruct (b_of_Q_int prec emax q z E) as [V F]; [|split; assumption]. apply Z.le_trans with (2 ^ 24)%Z; [exact H|apply Z.pow_le_mono_r; lia]. Qed.
Lemma nlit_at q z : Q2R q = IZR z -> (Z.abs z <= 2 ^ 24)%Z -> is_finite (Bopp (litd q)) = true /\ B2R (Bopp (litd q)) = IZR (- z).
Proof. intros E H. destruct (lit_at q z E H) as [F V]. rewrite is_finite_Bopp, B2R_Bopp, V, opp_IZR. split; [exact F|reflexivity]. Qed.
Lemma N_litscale q z w r e a c : Q2R q = IZR z -> (Z.abs z <= 2 ^ 24)%Z -> Z.abs z = w -> N r e a c -> 0 <= a -> 0 <= c -> IZR w * a <= 1000000 -> IZR w * c <= 1000000 ->
  N (Bmult mode_NE (litd q) r) (IZR z * e) (IZR w * a) (IZR w * c + IZR w * a + 2).
Proof. intros Q Z1 W. destruct (lit_at q z Q Z1) as [F V]. apply N_scale; assumption. Qed.
Lemma N_nlitscale q z w r e a c : Q2R q = IZR z -> (Z.abs z <= 2 ^ 24)%Z -> Z.abs z = w -> N r e a c -> 0 <= a -> 0 <= c -> IZR w * a <= 1000000 -> IZR w * c <= 1000000 ->
  N (Bmult mode_NE (Bopp (litd q)) r) (- IZR z * e) (IZR w * a) (IZR w * c + IZR w * a + 2).
Proof. intros Q Z1 W. destruct (nlit_at q z Q Z1) as [F V]. rewrite <- opp_IZR. apply N_scale; [rewrite Z.abs_opp; exact W|exact F|exact V]. Qed.
Lemma N_litover q z r e a c : Q2R q = IZR z -> (1 <= z <= 2 ^ 24)%Z -> N r e a c -> 0 <= a <= 1000000 -> 0 <= c <= 1000000 ->
  N (Bdiv mode_NE r (litd q)) (e / IZR z) (a / IZR z) (c / IZR z + a / IZR z + 2).
Proof. intros Q Z1. destruct (lit_at q z Q ltac:(lia)) as [_ V]. apply N_over; [exact V|lia]. Qed.

Ltac zq q k := let z := eval vm_compute in (Qnum q / Zpos (Qden q))%Z in k z.
Ltac nap := lazymatch goal with
  | |- N (Bplus mode_NE _ _) _ _ _ => eapply N_add; [nap|nap|lra..]
  | |- N (Bminus mode_NE _ _) _ _ _ => eapply N_sub; [nap|nap|lra..]
  | |- N (Bmult mode_NE (litd ?q) _) _ _ _ => zq q ltac:(fun z => eapply (N_litscale q z z); [clear; q2r; lra|cbn; lia|reflexivity|nap|lra..])
  | |- N (Bmult mode_NE (Bopp (litd ?q)) _) _ _ _ => zq q ltac:(fun z => eapply (N_nlitscale q z z); [clear; q2r; lra|cbn; lia|reflexivity|nap|lra..])
  | |- N (Bdiv mode_NE _ (litd ?q)) _ _ _ => zq q ltac:(fun z => eapply (N_litover q z); [clear; q2r; lra|cbn; lia|nap|lra..])
  | |- N (Bmult mode_NE _ ?p) _ _ _ => eapply N_pow; [nap|eassumption|eassumption|eassumption|lra..]
  | |- N (Bopp _) _ _ _ => eapply N_opp; nap
  | |- _ => eassumption
  end.

(* the six-point polynomial of interpolation.rs 61-70 and 126-131 *)
Definition fseg (r0 r1 r2 r3 r4 r5 d p2 p3 p4 p5 : fl) : fl :=
  let a1p := Bdiv mode_NE (Bminus mode_NE (Bplus mode_NE (Bminus mode_NE (Bmult mode_NE (litd 2.0) r0) (Bmult mode_NE (litd 16.0) r1)) (Bmult mode_NE (litd 16.0) r3)) (Bmult mode_NE (litd 2.0) r4)) (litd 24.0) in
  let a2p := Bdiv mode_NE (Bminus mode_NE (Bplus mode_NE (Bminus mode_NE (Bplus mode_NE (Bopp r0) (Bmult mode_NE (litd 16.0) r1)) (Bmult mode_NE (litd 30.0) r2)) (Bmult mode_NE (litd 16.0) r3)) r4) (litd 24.0) in
  let a3p := Bdiv mode_NE (Bplus mode_NE (Bminus mode_NE (Bplus mode_NE (Bminus mode_NE (Bplus mode_NE (Bmult mode_NE (Bopp (litd 9.0)) r0) (Bmult mode_NE (litd 39.0) r1)) (Bmult mode_NE (litd 70.0) r2)) (Bmult mode_NE (litd 66.0) r3)) (Bmult mode_NE (litd 33.0) r4)) (Bmult mode_NE (litd 7.0) r5)) (litd 24.0) in
  let a4p := Bdiv mode_NE (Bminus mode_NE (Bplus mode_NE (Bminus mode_NE (Bplus mode_NE (Bminus mode_NE (Bmult mode_NE (litd 13.0) r0) (Bmult mode_NE (litd 64.0) r1)) (Bmult mode_NE (litd 126.0) r2)) (Bmult mode_NE (litd 124.0) r3)) (Bmult mode_NE (litd 61.0) r4)) (Bmult mode_NE (litd 12.0) r5)) (litd 24.0) in
  let a5p := Bdiv mode_NE (Bplus mode_NE (Bminus mode_NE (Bplus mode_NE (Bminus mode_NE (Bplus mode_NE (Bmult mode_NE (Bopp (litd 5.0)) r0) (Bmult mode_NE (litd 25.0) r1)) (Bmult mode_NE (litd 50.0) r2)) (Bmult mode_NE (litd 50.0) r3)) (Bmult mode_NE (litd 25.0) r4)) (Bmult mode_NE (litd 5.0) r5)) (litd 24.0) in
  Bplus mode_NE (Bplus mode_NE (Bplus mode_NE (Bplus mode_NE (Bplus mode_NE r2 (Bmult mode_NE a1p d)) (Bmult mode_NE a2p p2)) (Bmult mode_NE a3p p3)) (Bmult mode_NE a4p p4)) (Bmult mode_NE a5p p5).

Section Seg.
Context (r0 r1 r2 r3 r4 r5 d p2 p3 p4 p5 : fl) (e0 e1 e2 e3 e4 e5 q : R).
Context (Q : 0 <= q <= 1) (Fd : is_finite d = true) (F2 : is_finite p2 = true) (F3 : is_finite p3 = true) (F4 : is_finite p4 = true) (F5 : is_finite p5 = true).
Context (D1 : Rabs (B2R d - q) <= 5 * u) (D2 : Rabs (B2R p2 - q ^ 2) <= 20 * u) (D3 : Rabs (B2R p3 - q ^ 3) <= 25 * u) (D4 : Rabs (B2R p4 - q ^ 4) <= 30 * u) (D5 : Rabs (B2R p5 - q ^ 5) <= 35 * u).
Lemma pow01 n : 0 <= q ^ n <= 1.
Proof. split; [apply Rfunctions.pow_le; lra|]. rewrite <- (pow1 n). apply pow_incr. lra. Qed.
Lemma seg_any : N r0 e0 47 280 -> N r1 e1 10 70 -> N r2 e2 1 0 -> N r3 e3 1 0 -> N r4 e4 10 70 -> N r5 e5 47 280 ->
  N (fseg r0 r1 r2 r3 r4 r5 d p2 p3 p4 p5) (P0 (seg6 e0 e1 e2 e3 e4 e5) q) 248 10500.
Proof.
  intros. pose proof (pow01 2) as Q2. pose proof (pow01 3) as Q3. pose proof (pow01 4) as Q4. pose proof (pow01 5) as Q5.
  unfold fseg. cbv zeta. eapply N_weak; [nap| |lra|lra]. unfold seg6. cbn [P0]. field.
Qed.
Lemma seg_inner : N r0 e0 1 0 -> N r1 e1 1 0 -> N r2 e2 1 0 -> N r3 e3 1 0 -> N r4 e4 1 0 -> N r5 e5 1 0 ->
  N (fseg r0 r1 r2 r3 r4 r5 d p2 p3 p4 p5) (P0 (seg6 e0 e1 e2 e3 e4 e5) q) 38 1400.
Proof.
  intros. pose proof (pow01 2) as Q2. pose proof (pow01 3) as Q3. pose proof (pow01 4) as Q4. pose proof (pow01 5) as Q5.
  unfold fseg. cbv zeta. eapply N_weak; [nap| |lra|lra]. unfold seg6. cbn [P0]. field.
Qed.
End Seg.
(* at a sample the polynomial is exact *)
Lemma seg_knot r0 r1 r2 r3 r4 r5 e0 e1 e3 e4 e5 d p2 p3 p4 p5 : N r0 e0 47 280 -> N r1 e1 10 70 -> N r2 (B2R r2) 1 0 -> N r3 e3 1 0 -> N r4 e4 10 70 -> N r5 e5 47 280 ->
  is_finite d = true -> is_finite p2 = true -> is_finite p3 = true -> is_finite p4 = true -> is_finite p5 = true ->
  B2R d = 0 -> B2R p2 = 0 -> B2R p3 = 0 -> B2R p4 = 0 -> B2R p5 = 0 -> B2R (fseg r0 r1 r2 r3 r4 r5 d p2 p3 p4 p5) = B2R r2.
Proof.
  intros H0 H1 H2 H3 H4 H5 Fd F2 F3 F4 F5 Zd Z2 Z3 Z4 Z5. unfold fseg. cbv zeta.
  assert (A : forall a p x : fl, is_finite a = true -> is_finite p = true -> B2R p = 0 -> is_finite x = true -> B2R x = B2R r2 -> is_finite (Bplus mode_NE x (Bmult mode_NE a p)) = true /\ B2R (Bplus mode_NE x (Bmult mode_NE a p)) = B2R r2).
  { intros a p x Fa Fp Zp Fx Vx. assert (V : rnd (B2R a * B2R p) = 0) by (rewrite Zp, Rmult_0_r; apply round_0; auto with typeclass_instances).
    assert (F : is_finite (Bmult mode_NE a p) = true) by (apply mult_small; try assumption; rewrite V, Rabs_R0; apply bpow_gt_0). pose proof (mult_fin prec emax _ _ F) as (_ & _ & E). rewrite V in E.
    apply plus_value; try assumption. rewrite E, Vx. ring. }
  assert (B : forall r e a c, N r e a c -> is_finite r = true) by (intros ? ? ? ? (F & _); exact F).
  assert (F : is_finite r2 = true) by (eapply B; eassumption).
  match goal with |- B2R (Bplus mode_NE (Bplus mode_NE (Bplus mode_NE (Bplus mode_NE (Bplus mode_NE r2 (Bmult mode_NE ?a1 d)) (Bmult mode_NE ?a2 p2)) (Bmult mode_NE ?a3 p3)) (Bmult mode_NE ?a4 p4)) (Bmult mode_NE ?a5 p5)) = _ =>
    assert (G1 : is_finite a1 = true) by (eapply B; nap); assert (G2 : is_finite a2 = true) by (eapply B; nap); assert (G3 : is_finite a3 = true) by (eapply B; nap);
    assert (G4 : is_finite a4 = true) by (eapply B; nap); assert (G5 : is_finite a5 = true) by (eapply B; nap) end.
  destruct (A _ d r2 G1 Fd Zd F eq_refl) as [X1 Y1]. destruct (A _ p2 _ G2 F2 Z2 X1 Y1) as [X2 Y2]. destruct (A _ p3 _ G3 F3 Z3 X2 Y2) as [X3 Y3].
  destruct (A _ p4 _ G4 F4 Z4 X3 Y3) as [X4 Y4]. destruct (A _ p5 _ G5 F5 Z5 X4 Y4) as [_ Y5]. exact Y5.
Qed.

(* the two values on either side of the samples, interpolation.rs 100-117 *)
Definition ffsum (l : list fl) : fl := fold_left (Bplus mode_NE) l (litd 0.0).
Lemma N_zero : N (litd 0.0) 0 0 0.
Proof. destruct (lit_at 0.0 0) as [F V]; [clear; q2r; lra|cbn; lia|]. split; [exact F|]. rewrite V. replace (0 - 0) with 0 by ring. rewrite Rabs_R0. lra. Qed.
Lemma ext_outer r0 r1 r2 r3 r4 r5 e0 e1 e2 e3 e4 e5 : N r0 e0 1 0 -> N r1 e1 1 0 -> N r2 e2 1 0 -> N r3 e3 1 0 -> N r4 e4 1 0 -> N r5 e5 1 0 ->
  N (Bdiv mode_NE (Bplus mode_NE (Bplus mode_NE (Bplus mode_NE (Bplus mode_NE (Bplus mode_NE (Bplus mode_NE (litd 0.0) (Bmult mode_NE (litd 884.0) r0)) (Bmult mode_NE (Bopp (litd 1960.0)) r1)) (Bmult mode_NE (litd 3033.0) r2)) (Bmult mode_NE (Bopp (litd 2648.0)) r3)) (Bmult mode_NE (litd 1080.0) r4)) (Bmult mode_NE (Bopp (litd 180.0)) r5)) (litd 209.0))
    (dotp C0 [e0; e1; e2; e3; e4; e5] / 209) 47 280.
Proof. intros. pose proof N_zero. eapply N_weak; [nap| |lra|lra]. unfold C0. cbn [dotp]. field. Qed.
Lemma ext_inner r0 r1 r2 r3 r4 r5 e0 e1 e2 e3 e4 e5 : N r0 e0 1 0 -> N r1 e1 1 0 -> N r2 e2 1 0 -> N r3 e3 1 0 -> N r4 e4 1 0 -> N r5 e5 1 0 ->
  N (Bdiv mode_NE (Bplus mode_NE (Bplus mode_NE (Bplus mode_NE (Bplus mode_NE (Bplus mode_NE (Bplus mode_NE (litd 0.0) (Bmult mode_NE (litd 508.0) r0)) (Bmult mode_NE (Bopp (litd 540.0)) r1)) (Bmult mode_NE (litd 488.0) r2)) (Bmult mode_NE (Bopp (litd 367.0)) r3)) (Bmult mode_NE (litd 144.0) r4)) (Bmult mode_NE (Bopp (litd 24.0)) r5)) (litd 209.0))
    (dotp C1 [e0; e1; e2; e3; e4; e5] / 209) 10 70.
Proof. intros. pose proof N_zero. eapply N_weak; [nap| |lra|lra]. unfold C1. cbn [dotp]. field. Qed.

End N.
