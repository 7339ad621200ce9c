(* Rounding error of the compensated (Kahan) sum and of the eight-lane sum of spd.rs *)
From Coq Require Import Reals ZArith Lra Lia Bool List.
From Flocq Require Import Core BinarySingleNaN.
From Verif Require Import RealOps MathModel ColorModel SpdModel FloatInst FloatProofs ErrProofs.
Import ListNotations.
Open Scope R_scope.

(* plain sums of reals *)
Fixpoint rsum (l : list R) : R := match l with [] => 0 | x :: l' => x + rsum l' end.
Definition asum (l : list R) : R := rsum (map Rabs l).
Lemma asum_pos l : 0 <= asum l.
Proof. unfold asum. induction l as [|x l IH]; cbn; [lra|]. pose proof (Rabs_pos x). lra. Qed.

(* one step of the compensated sum, as a statement about reals: [a], [c] the running sum and the
   correction, [P] the exact sum so far and [A] that of the absolute values *)
Lemma kahan_real u a c P A e p y t w c' :
  0 < u <= / 1000 -> 0 <= A -> Rabs P <= A -> 2 * u <= e <= 3 * u ->
  Rabs (a - c - P) <= e * A -> Rabs c <= 3 * u * A ->
  Rabs (y - (p - c)) <= u * Rabs (p - c) -> Rabs (t - (a + y)) <= u * Rabs (a + y) ->
  Rabs (t - (P + p)) <= 5 * u * (A + Rabs p)
  /\ (Rabs (w - (t - a)) <= u * Rabs (t - a) -> Rabs (c' - (w - y)) <= u * Rabs (w - y) ->
      Rabs (t - c' - (P + p)) <= (e + 16 * u * u) * (A + Rabs p) /\ Rabs c' <= 3 * u * (A + Rabs p)).
Proof.
  intros [U0 U] HA HP [E0 E1] HE Hc Hy Ht. set (B := A + Rabs p).
  pose proof (Rabs_pos p) as Hp. assert (HB : 0 <= B) by (unfold B; lra). assert (AB : A <= B) by (unfold B; lra). assert (pB : Rabs p <= B) by (unfold B; lra).
  set (d0 := y - (p - c)) in *. set (d1 := t - (a + y)) in *.
  assert (UB : 0 <= u * B) by (apply Rmult_le_pos; lra).
  assert (UA : u * A <= u * B) by (apply Rmult_le_compat_l; lra).
  assert (UA0 : 0 <= u * A) by (apply Rmult_le_pos; lra).
  assert (Up : u * Rabs p <= u * B) by (apply Rmult_le_compat_l; lra).
  assert (UUB : u * (u * B) <= / 1000 * (u * B)) by (apply Rmult_le_compat_r; lra).
  assert (UUB0 : 0 <= u * (u * B)) by (apply Rmult_le_pos; lra).
  assert (UUA : u * (u * A) <= u * (u * B)) by (apply Rmult_le_compat_l; lra).
  assert (UUp : u * (u * Rabs p) <= u * (u * B)) by (apply Rmult_le_compat_l; lra).
  assert (UUU : u * (u * (u * B)) <= / 1000 * (u * (u * B))) by (apply Rmult_le_compat_r; lra).
  assert (EA : e * A <= 3 * (u * A)) by (replace (3 * (u * A)) with (3 * u * A) by ring; apply Rmult_le_compat_r; lra).
  assert (Q0 : Rabs (p - c) <= Rabs p + 3 * (u * A)).
  { pose proof (Rabs_triang p (- c)) as X. rewrite Rabs_Ropp in X. unfold Rminus. lra. }
  assert (D0 : Rabs d0 <= u * Rabs p + 3 * (u * (u * A))).
  { eapply Rle_trans; [exact Hy|]. replace (u * Rabs p + 3 * (u * (u * A))) with (u * (Rabs p + 3 * (u * A))) by ring. apply Rmult_le_compat_l; lra. }
  assert (Qy : Rabs y <= Rabs p + 3 * (u * A) + u * Rabs p + 3 * (u * (u * A))).
  { replace y with ((p - c) + d0) by (unfold d0; ring). pose proof (Rabs_triang (p - c) d0). lra. }
  assert (Qs : Rabs (a + y) <= B + 5 * (u * B)).
  { replace (a + y) with ((a - c - P) + (P + p) + d0) by (unfold d0; ring).
    pose proof (Rabs_triang ((a - c - P) + (P + p)) d0). pose proof (Rabs_triang (a - c - P) (P + p)). pose proof (Rabs_triang P p). unfold B in *. lra. }
  assert (D1 : Rabs d1 <= u * B + 5 * (u * (u * B))).
  { eapply Rle_trans; [exact Ht|]. replace (u * B + 5 * (u * (u * B))) with (u * (B + 5 * (u * B))) by ring. apply Rmult_le_compat_l; lra. }
  split.
  - replace (t - (P + p)) with ((a - c - P) + (d0 + d1)) by (unfold d0, d1; ring).
    pose proof (Rabs_triang (a - c - P) (d0 + d1)). pose proof (Rabs_triang d0 d1).
    apply Rle_trans with (3 * (u * A) + (u * Rabs p + 3 * (u * (u * A)) + (u * B + 5 * (u * (u * B))))); [lra|].
    replace (5 * u * B) with (5 * (u * B)) by ring.
    assert (X : 3 * (u * A) + u * Rabs p <= 3 * (u * B)) by (unfold B; nra). lra.
  - intros Hw Hc'. set (d2 := w - (t - a)) in *. set (d3 := c' - (w - y)) in *.
    assert (Qt : Rabs (t - a) <= Rabs p + 6 * (u * B)).
    { replace (t - a) with (y + d1) by (unfold d1; ring). pose proof (Rabs_triang y d1). lra. }
    assert (D2 : Rabs d2 <= u * Rabs p + 6 * (u * (u * B))).
    { eapply Rle_trans; [exact Hw|]. replace (u * Rabs p + 6 * (u * (u * B))) with (u * (Rabs p + 6 * (u * B))) by ring. apply Rmult_le_compat_l; lra. }
    assert (Ew : w - y = d1 + d2) by (unfold d1, d2; ring).
    assert (Qw : Rabs (w - y) <= u * B + u * Rabs p + 11 * (u * (u * B))).
    { rewrite Ew. pose proof (Rabs_triang d1 d2). lra. }
    assert (D3 : Rabs d3 <= 3 * (u * (u * B))).
    { eapply Rle_trans; [exact Hc'|]. apply Rle_trans with (u * (u * B + u * Rabs p + 11 * (u * (u * B)))); [apply Rmult_le_compat_l; lra|].
      replace (u * (u * B + u * Rabs p + 11 * (u * (u * B)))) with (u * (u * B) + u * (u * Rabs p) + 11 * (u * (u * (u * B)))) by ring. lra. }
    split.
    + replace (t - c' - (P + p)) with ((a - c - P) + (d0 - d2 - d3)) by (unfold d0, d2, d3; ring).
      pose proof (Rabs_triang (a - c - P) (d0 - d2 - d3)). pose proof (Rabs_triang (d0 - d2) (- d3)) as X. rewrite Rabs_Ropp in X. pose proof (Rabs_triang d0 (- d2)) as Y. rewrite Rabs_Ropp in Y.
      unfold Rminus in *. apply Rle_trans with (e * A + (2 * (u * Rabs p) + 12 * (u * (u * B)))); [lra|].
      replace ((e + 16 * u * u) * B) with (e * A + e * Rabs p + 16 * (u * (u * B))) by (unfold B; ring).
      assert (2 * (u * Rabs p) <= e * Rabs p) by (replace (2 * (u * Rabs p)) with (2 * u * Rabs p) by ring; apply Rmult_le_compat_r; lra). lra.
    + replace c' with (d1 + (d2 + d3)) by (unfold d1, d2, d3; ring). pose proof (Rabs_triang d1 (d2 + d3)). pose proof (Rabs_triang d2 d3).
      replace (3 * u * B) with (3 * (u * B)) by ring. lra.
Qed.

Section K.
Context (prec emax : Z) {Hp : Prec_gt_0 prec} {He : Prec_lt_emax prec emax}.
Notation fl := (binary_float prec emax).
Notation u := (bpow radix2 (- prec)).
Notation eta := (bpow radix2 (2 - emax - prec)).
Notation add := (Bplus mode_NE).
Notation sub := (Bminus mode_NE).
Notation mul := (Bmult mode_NE).

Lemma rnd_diff (x y : fl) : Rabs (round radix2 (SpecFloat.fexp prec emax) ZnearestE (B2R x - B2R y) - (B2R x - B2R y)) <= u * Rabs (B2R x - B2R y).
Proof. pose proof (rnd_sum prec emax x (Bopp y)) as H. rewrite B2R_Bopp in H. exact H. Qed.
Lemma add_err (x y : fl) : is_finite (add x y) = true -> is_finite x = true /\ is_finite y = true /\ Rabs (B2R (add x y) - (B2R x + B2R y)) <= u * Rabs (B2R x + B2R y).
Proof. intro F. destruct (plus_fin prec emax x y F) as (X & Y & E). repeat split; try assumption. rewrite E. apply (rnd_sum prec emax). Qed.
Lemma sub_err (x y : fl) : is_finite (sub x y) = true -> is_finite x = true /\ is_finite y = true /\ Rabs (B2R (sub x y) - (B2R x - B2R y)) <= u * Rabs (B2R x - B2R y).
Proof. intro F. destruct (minus_fin prec emax x y F) as (X & Y & E). repeat split; try assumption. rewrite E. apply rnd_diff. Qed.
Lemma mul_err (x y : fl) : is_finite (mul x y) = true -> is_finite x = true /\ is_finite y = true /\ Rabs (B2R (mul x y) - B2R x * B2R y) <= u * Rabs (B2R x * B2R y) + eta.
Proof. intro F. destruct (mult_fin prec emax x y F) as (X & Y & E). repeat split; try assumption. rewrite E. apply (rnd_any prec emax). Qed.

(* the compensated sum of a list, one channel *)
Definition kstep (st : fl * fl) (p : fl) : fl * fl :=
  let '(a, c) := st in let y := sub p c in let t := add a y in (t, sub (sub t a) y).

Lemma kfin l : forall a c : fl, is_finite (fst (fold_left kstep l (a, c))) = true -> is_finite a = true.
Proof.
  induction l as [|z m IH]; intros t c' F; [exact F|]. cbn [fold_left] in F. unfold kstep at 2 in F. apply IH in F. apply add_err in F. apply F.
Qed.
Lemma kahan_from l : forall (a c : fl) (P A e : R), (24 <= prec)%Z -> l <> [] ->
  is_finite (fst (fold_left kstep l (a, c))) = true ->
  0 <= A -> Rabs P <= A -> 2 * u <= e -> e + 16 * u * u * INR (length l) <= 3 * u ->
  (is_finite c = true -> Rabs (B2R a - B2R c - P) <= e * A /\ Rabs (B2R c) <= 3 * u * A) ->
  is_finite a = true /\ is_finite c = true
  /\ Rabs (B2R (fst (fold_left kstep l (a, c))) - (P + rsum (map B2R l))) <= 5 * u * (A + asum (map B2R l)).
Proof.
  induction l as [|p l IH]; intros a c P A e PR N F HA HP He1 He2 Inv; [congruence|]. cbn [fold_left] in *.
  set (y := sub p c) in *. set (t := add a y) in *. set (c' := sub (sub t a) y) in *.
  change (kstep (a, c) p) with (t, c') in *.
  assert (U : 0 < u <= / 1000).
  { split; [apply bpow_gt_0|]. apply Rle_trans with (bpow radix2 (-10)); [apply bpow_le; lia|]. cbn. lra. }
  assert (UU : 0 < u * u) by (apply Rmult_lt_0_compat; lra).
  change (length (p :: l)) with (Datatypes.S (length l)) in He2. rewrite S_INR in He2. pose proof (pos_INR (length l)) as LN.
  assert (E3 : e <= 3 * u). { assert (0 <= 16 * u * u * (INR (length l) + 1)) by (apply Rmult_le_pos; lra). lra. }
  assert (E4 : e + 16 * u * u + 16 * u * u * INR (length l) <= 3 * u) by lra.
  assert (step : is_finite t = true -> is_finite a = true /\ is_finite c = true
     /\ Rabs (B2R t - (P + B2R p)) <= 5 * u * (A + Rabs (B2R p))
     /\ (is_finite c' = true -> Rabs (B2R t - B2R c' - (P + B2R p)) <= (e + 16 * u * u) * (A + Rabs (B2R p)) /\ Rabs (B2R c') <= 3 * u * (A + Rabs (B2R p)))).
  { intro Ft. destruct (add_err a y Ft) as (Fa & Fy & Et). destruct (sub_err p c Fy) as (Fp & Fc & Ey). destruct (Inv Fc) as [I1 I2].
    destruct (kahan_real u (B2R a) (B2R c) P A e (B2R p) (B2R y) (B2R t) (B2R (sub t a)) (B2R c') U HA HP (conj He1 E3) I1 I2 Ey Et) as [K1 K2].
    split; [exact Fa|]. split; [exact Fc|]. split; [exact K1|]. intro Fc'. destruct (sub_err _ _ Fc') as (Fw & _ & Ec). apply K2; [apply (sub_err _ _ Fw)|exact Ec]. }
  destruct l as [|q l].
  - cbn [fold_left fst] in F |- *. destruct (step F) as (Fa & Fc & B & _). split; [exact Fa|]. split; [exact Fc|].
    unfold asum. cbn [map rsum]. rewrite !Rplus_0_r. exact B.
  - assert (HA' : 0 <= A + Rabs (B2R p)) by (pose proof (Rabs_pos (B2R p)); lra).
    assert (HP' : Rabs (P + B2R p) <= A + Rabs (B2R p)) by (pose proof (Rabs_triang P (B2R p)); lra).
    (* finiteness of t, from the tail *)
    assert (Ft : is_finite t = true).
    { exact (kfin (q :: l) t c' F). }
    destruct (step Ft) as (Fa & Fc & _ & S2).
    destruct (IH t c' (P + B2R p) (A + Rabs (B2R p)) (e + 16 * u * u) PR ltac:(discriminate) F HA' HP' ltac:(lra) E4 S2) as (_ & _ & B).
    split; [exact Fa|]. split; [exact Fc|].
    unfold asum in *. cbn [map rsum] in *. rewrite !Rplus_assoc in B. rewrite ?Rplus_assoc. exact B.
Qed.

(* from zero, for up to 2^20 terms *)
Lemma kahan_err l : (24 <= prec)%Z -> (length l <= 2 ^ 20)%nat -> is_finite (fst (fold_left kstep l (B754_zero false, B754_zero false))) = true ->
  Rabs (B2R (fst (fold_left kstep l (B754_zero false, B754_zero false))) - rsum (map B2R l)) <= 5 * u * asum (map B2R l).
Proof.
  intros PR HL F. destruct l as [|p l]; [cbn; unfold Rminus; rewrite Ropp_0, Rplus_0_r, Rabs_R0; lra|].
  destruct (kahan_from (p :: l) (B754_zero false) (B754_zero false) 0 0 (2 * u) PR ltac:(discriminate) F) as (_ & _ & B).
  - lra.
  - rewrite Rabs_R0. lra.
  - lra.
  - assert (U : u <= bpow radix2 (-24)) by (apply bpow_le; lia). assert (U0 : 0 < u) by apply bpow_gt_0.
    assert (N : INR (length (p :: l)) <= bpow radix2 20).
    { apply le_INR in HL. rewrite pow_INR in HL. change (INR 2) with 2 in HL. rewrite bpow_powerRZ. exact HL. }
    assert (X : 16 * u * INR (length (p :: l)) <= 1).
    { apply Rle_trans with (16 * bpow radix2 (-24) * bpow radix2 20).
      - apply Rmult_le_compat; try lra. apply pos_INR.
      - rewrite Rmult_assoc, <- bpow_plus. cbn. lra. }
    replace (16 * u * u * INR (length (p :: l))) with (u * (16 * u * INR (length (p :: l)))) by ring.
    assert (u * (16 * u * INR (length (p :: l))) <= u * 1) by (apply Rmult_le_compat_l; lra). lra.
  - intros _. cbn [B2R]. rewrite Rmult_0_r, Rmult_0_r. unfold Rminus. rewrite !Ropp_0, !Rplus_0_r, Rabs_R0. lra.
  - rewrite !Rplus_0_l in B. exact B.
Qed.

(* [r] approximates the exact value [e] (of absolute weight [A]) after [k] roundings, [m] products *)
Definition ap (k : nat) (m : R) (r : fl) (e A : R) : Prop :=
  Rabs e <= A /\ Rabs (B2R r - e) <= ((1 + u) ^ k - 1) * A + (1 + u) ^ k * (m * eta).
Lemma ap_mul (x y : fl) : is_finite (mul x y) = true -> ap 1 1 (mul x y) (B2R x * B2R y) (Rabs (B2R x * B2R y)).
Proof.
  intro F. destruct (mul_err x y F) as (_ & _ & E). split; [lra|]. eapply Rle_trans; [exact E|].
  pose proof (bpow_gt_0 radix2 (- prec)). pose proof (bpow_gt_0 radix2 (2 - emax - prec)). rewrite !pow_1, Rmult_1_l.
  assert (0 <= u * eta) by (apply Rmult_le_pos; lra). lra.
Qed.
Lemma ap_weak k k' m r e A : (k <= k')%nat -> 0 <= m -> ap k m r e A -> ap k' m r e A.
Proof.
  intros H M [HA HE]. split; [exact HA|]. eapply Rle_trans; [exact HE|]. pose proof (bpow_gt_0 radix2 (- prec)) as U. pose proof (bpow_gt_0 radix2 (2 - emax - prec)) as T.
  assert (X : (1 + u) ^ k <= (1 + u) ^ k') by (apply Rle_pow; [lra|exact H]).
  assert (0 <= A) by (pose proof (Rabs_pos e); lra). assert (0 <= m * eta) by (apply Rmult_le_pos; lra).
  apply Rplus_le_compat; apply Rmult_le_compat_r; lra.
Qed.
Lemma ap_add k m m' (r r' : fl) e e' A A' : 0 <= m -> 0 <= m' -> is_finite (add r r') = true ->
  (is_finite r = true -> ap k m r e A) -> (is_finite r' = true -> ap k m' r' e' A') -> ap (S k) (m + m') (add r r') (e + e') (A + A').
Proof.
  intros M M' F H H'. destruct (add_err _ _ F) as (Fr & Fr' & E). destruct (H Fr) as [HA HE], (H' Fr') as [HA' HE']. clear H H' F Fr Fr'.
  pose proof (bpow_gt_0 radix2 (- prec)) as U. pose proof (bpow_gt_0 radix2 (2 - emax - prec)) as T.
  assert (W : 0 <= u) by lra.
  destruct (step_err (B2R r) (B2R r') _ _ e e' A A' (B2R (add r r')) u W HA HA' HE HE' E) as [S1 S2]. split; [exact S2|].
  eapply Rle_trans; [exact S1|]. apply Req_le. rewrite <- tech_pow_Rmult. ring.
Qed.
End K.
