(* Powers with a fractional exponent bracketed by integer arithmetic: short products, rounded down or up *)
From Coq Require Import Reals ZArith QArith Qreals Lra Lia Bool List.
From Flocq Require Import Core.
From Verif Require Import XReal.
Import ListNotations.
Open Scope R_scope.
Local Notation two e := (bpow radix2 e).

Definition val (a : Z * Z) : R := IZR (fst a) * two (snd a).
Definition cut (up : bool) (p : Z) (e : Z) : Z * Z :=
  let k := (Z.log2 p - 99)%Z in if (0 <? k)%Z then ((Z.shiftr p k + (if up then 1 else 0))%Z, (e + k)%Z) else (p, e).
Definition mulp (up : bool) (a b : Z * Z) : Z * Z := cut up (fst a * fst b) (snd a + snd b).
Fixpoint powp (up : bool) (n : positive) (a : Z * Z) : Z * Z :=
  match n with xH => a | xO n => let s := powp up n a in mulp up s s | xI n => let s := powp up n a in mulp up (mulp up s s) a end.
Definition lep (a b : Z * Z) : bool := if (snd a <=? snd b)%Z then (fst a <=? Z.shiftl (fst b) (snd b - snd a))%Z else (Z.shiftl (fst a) (snd a - snd b) <=? fst b)%Z.

Lemma two_Z k : (0 <= k)%Z -> two k = IZR (2 ^ k).
Proof. intro H. rewrite (IZR_Zpower radix2) by exact H. reflexivity. Qed.
Lemma cut_ok p e : (0 <= p)%Z -> (0 <= fst (cut false p e))%Z /\ (0 <= fst (cut true p e))%Z /\ val (cut false p e) <= IZR p * two e <= val (cut true p e).
Proof.
  intro P. unfold cut, val. destruct (Z.ltb_spec 0 (Z.log2 p - 99)) as [H|H]; cbn [fst snd]; [|split; [exact P|]; split; [exact P|lra]].
  set (k := (Z.log2 p - 99)%Z) in *. rewrite Z.shiftr_div_pow2 by lia. assert (P2 : (0 < 2 ^ k)%Z) by (apply Z.pow_pos_nonneg; lia). assert (P3 := Z.div_pos p (2 ^ k) P P2). split; [lia|]. split; [lia|].
  rewrite Z.add_0_r, bpow_plus. pose proof (bpow_gt_0 radix2 e) as PE.
  assert (D1 := Z.mul_div_le p (2 ^ k) P2). assert (D2 := Z.mul_succ_div_gt p (2 ^ k) P2). apply IZR_le in D1. apply IZR_lt in D2. rewrite mult_IZR in D1, D2. unfold Z.succ in D2. rewrite (two_Z k) by lia.
  set (q := IZR (p / 2 ^ k)) in *. rewrite plus_IZR in *. fold q in D2 |- *. set (t := IZR (2 ^ k)) in *. split.
  - replace (q * (two e * t)) with ((t * q) * two e) by ring. apply Rmult_le_compat_r; lra.
  - replace ((q + 1) * (two e * t)) with ((t * (q + 1)) * two e) by ring. apply Rmult_le_compat_r; lra.
Qed.
Lemma val_nonneg a : (0 <= fst a)%Z -> 0 <= val a.
Proof. intro H. unfold val. apply Rmult_le_pos; [apply IZR_le, H|apply bpow_ge_0]. Qed.
Lemma mulp_ok a b : (0 <= fst a)%Z -> (0 <= fst b)%Z -> (0 <= fst (mulp false a b))%Z /\ (0 <= fst (mulp true a b))%Z /\ val (mulp false a b) <= val a * val b <= val (mulp true a b).
Proof.
  intros A B. assert (P : (0 <= fst a * fst b)%Z) by (apply Z.mul_nonneg_nonneg; assumption). pose proof (cut_ok (fst a * fst b) (snd a + snd b) P) as H. rewrite mult_IZR, bpow_plus in H.
  unfold mulp. replace (val a * val b) with (IZR (fst a) * IZR (fst b) * (two (snd a) * two (snd b))) by (unfold val; ring). exact H.
Qed.
Lemma powp_dn n a : (0 <= fst a)%Z -> (0 <= fst (powp false n a))%Z /\ val (powp false n a) <= val a ^ Pos.to_nat n.
Proof.
  intro A. pose proof (val_nonneg _ A) as V. induction n as [n IH|n IH|]; cbn [powp].
  - destruct IH as [I1 I2]. destruct (mulp_ok _ _ I1 I1) as (M1 & _ & M2 & _). destruct (mulp_ok _ _ M1 A) as (N1 & _ & N2 & _). split; [exact N1|]. apply Rle_trans with (1 := N2).
    rewrite Pos2Nat.inj_xI, <- tech_pow_Rmult, Rmult_comm. apply Rmult_le_compat_l; [exact V|]. apply Rle_trans with (1 := M2). replace (2 * Pos.to_nat n)%nat with (Pos.to_nat n + Pos.to_nat n)%nat by lia. rewrite pow_add. pose proof (val_nonneg _ I1). apply Rmult_le_compat; assumption.
  - destruct IH as [I1 I2]. destruct (mulp_ok _ _ I1 I1) as (M1 & _ & M2 & _). split; [exact M1|]. apply Rle_trans with (1 := M2). rewrite Pos2Nat.inj_xO. replace (2 * Pos.to_nat n)%nat with (Pos.to_nat n + Pos.to_nat n)%nat by lia. rewrite pow_add. pose proof (val_nonneg _ I1). apply Rmult_le_compat; assumption.
  - split; [exact A|]. rewrite Pos2Nat.inj_1. cbn [pow]. lra.
Qed.
Lemma powp_up n a : (0 <= fst a)%Z -> (0 <= fst (powp true n a))%Z /\ val a ^ Pos.to_nat n <= val (powp true n a).
Proof.
  intro A. pose proof (val_nonneg _ A) as V. induction n as [n IH|n IH|]; cbn [powp].
  - destruct IH as [I1 I2]. destruct (mulp_ok _ _ I1 I1) as (_ & M1 & _ & M2). destruct (mulp_ok _ _ M1 A) as (_ & N1 & _ & N2). split; [exact N1|]. eapply Rle_trans; [|exact N2].
    rewrite Pos2Nat.inj_xI, <- tech_pow_Rmult, Rmult_comm. apply Rmult_le_compat_r; [exact V|]. eapply Rle_trans; [|exact M2]. replace (2 * Pos.to_nat n)%nat with (Pos.to_nat n + Pos.to_nat n)%nat by lia. rewrite pow_add. pose proof (Rfunctions.pow_le _ (Pos.to_nat n) V). apply Rmult_le_compat; assumption.
  - destruct IH as [I1 I2]. destruct (mulp_ok _ _ I1 I1) as (_ & M1 & _ & M2). split; [exact M1|]. eapply Rle_trans; [|exact M2]. rewrite Pos2Nat.inj_xO. replace (2 * Pos.to_nat n)%nat with (Pos.to_nat n + Pos.to_nat n)%nat by lia. rewrite pow_add. pose proof (Rfunctions.pow_le _ (Pos.to_nat n) V). apply Rmult_le_compat; assumption.
  - split; [exact A|]. rewrite Pos2Nat.inj_1. cbn [pow]. lra.
Qed.
Lemma lep_ok a b : lep a b = true -> val a <= val b.
Proof.
  unfold lep, val. destruct (Z.leb_spec (snd a) (snd b)) as [H|H]; intro E; apply Z.leb_le in E; rewrite Z.shiftl_mul_pow2 in E by lia; apply IZR_le in E; rewrite mult_IZR in E.
  - rewrite <- two_Z in E by lia. replace (snd b) with ((snd b - snd a) + snd a)%Z at 1 by lia. rewrite bpow_plus, <- Rmult_assoc. apply Rmult_le_compat_r; [apply bpow_ge_0|exact E].
  - rewrite <- two_Z in E by lia. replace (snd a) with ((snd a - snd b) + snd b)%Z at 1 by lia. rewrite bpow_plus, <- Rmult_assoc. apply Rmult_le_compat_r; [apply bpow_ge_0|exact E].
Qed.

(* a rational to 100 binary places *)
Definition fixq (q : Q) : Z := (Qnum q * 2 ^ 100 / Zpos (Qden q))%Z.
Lemma fixq_ok q : val (fixq q, (-100)%Z) <= Q2R q <= val ((fixq q + 1)%Z, (-100)%Z).
Proof.
  unfold fixq, val. cbn [fst snd]. set (n := (Qnum q * 2 ^ 100)%Z). assert (P : (0 < Zpos (Qden q))%Z) by reflexivity. assert (D1 := Z.mul_div_le n _ P). assert (D2 := Z.mul_succ_div_gt n _ P). apply IZR_le in D1. apply IZR_lt in D2. rewrite mult_IZR in D1, D2. unfold Z.succ in D2.
  assert (N : IZR n = IZR (Qnum q) * two 100) by (unfold n; rewrite mult_IZR, two_Z by lia; reflexivity). rewrite N in *. set (w := (n / Z.pos (Qden q))%Z) in *. clearbody w. rewrite plus_IZR in D2 |- *. set (f := IZR w) in *.
  assert (T : two (-100) * two 100 = 1) by (rewrite <- bpow_plus; reflexivity). pose proof (bpow_gt_0 radix2 (-100)) as P0. apply IZR_lt in P. unfold Q2R. set (a := IZR (Qnum q)) in *. set (d := IZR (Z.pos (Qden q))) in *. clearbody a d f.
  set (x := two (-100)) in *. set (y := two 100) in *. clearbody x y. clear N n.
  split; apply Rmult_le_reg_r with d; try exact P; rewrite ?(Rmult_assoc a (/ d) d), ?(Rinv_l d), ?Rmult_1_r by lra.
  - replace (f * x * d) with ((d * f) * x) by ring. replace a with (a * y * x) by (rewrite Rmult_assoc, (Rmult_comm y), T; ring). apply Rmult_le_compat_r; lra.
  - replace ((f + 1) * x * d) with ((d * (f + 1)) * x) by ring. replace a with (a * y * x) by (rewrite Rmult_assoc, (Rmult_comm y), T; ring). apply Rmult_le_compat_r; lra.
Qed.
Lemma pow_lt_mono x y n : 0 <= x < y -> (0 < n)%nat -> x ^ n < y ^ n.
Proof.
  intros [X Y] N. destruct n as [|n]; [lia|]. clear N. induction n as [|n IH]; [cbn; lra|]. rewrite <- (tech_pow_Rmult x), <- (tech_pow_Rmult y). pose proof (Rfunctions.pow_le x (S n) X). apply Rmult_le_0_lt_compat; lra.
Qed.
Lemma frac_pow x p q : 0 < x -> Rpower x (IZR (Zpos p) / IZR (Zpos q)) ^ Pos.to_nat q = x ^ Pos.to_nat p.
Proof.
  intro X. rewrite <- Rpower_pow by (unfold Rpower; apply exp_pos). rewrite Rpower_mult, !INR_IZR_INZ, positive_nat_Z. unfold Rdiv. rewrite Rmult_assoc, Rinv_l, Rmult_1_r by (apply IZR_neq; discriminate).
  rewrite <- (positive_nat_Z p), <- INR_IZR_INZ. apply Rpower_pow, X.
Qed.
(* lo <= x^(p/q) <= hi *)
Definition root_check (p q : positive) (x lo hi : Q) : bool :=
  let a := fixq x in let l := (fixq lo + 1)%Z in let h := fixq hi in
  ((0 <? a)%Z && (0 <=? l)%Z && (0 <=? h)%Z && lep (powp true q (l, (-100)%Z)) (powp false p (a, (-100)%Z)) && lep (powp true p ((a + 1)%Z, (-100)%Z)) (powp false q (h, (-100)%Z)))%bool.
Lemma root_check_ok p q x lo hi : root_check p q x lo hi = true -> 0 < Q2R x /\ Q2R lo <= Rpower (Q2R x) (IZR (Zpos p) / IZR (Zpos q)) <= Q2R hi.
Proof.
  unfold root_check. cbv zeta. rewrite !andb_true_iff. intros [[[[A B] C] D] E]. apply Z.ltb_lt in A. apply Z.leb_le in B, C. apply lep_ok in D, E.
  pose proof (fixq_ok x) as [X1 X2]. pose proof (fixq_ok lo) as [_ L]. pose proof (fixq_ok hi) as [H _].
  assert (PX : 0 < Q2R x). { apply Rlt_le_trans with (2 := X1). unfold val. cbn [fst snd]. apply Rmult_lt_0_compat; [apply IZR_lt, A|apply bpow_gt_0]. } split; [exact PX|].
  assert (PY : 0 < Rpower (Q2R x) (IZR (Z.pos p) / IZR (Z.pos q))) by (unfold Rpower; apply exp_pos). pose proof (frac_pow (Q2R x) p q PX) as FP. set (y := Rpower _ _) in *. clearbody y.
  pose proof (Pos2Nat.is_pos q) as NQ.
  assert (DN := powp_up q (fixq lo + 1, -100)%Z B). assert (DN2 := powp_dn p (fixq x, -100)%Z ltac:(cbn [fst]; lia)). assert (UP := powp_up p (fixq x + 1, -100)%Z ltac:(cbn [fst]; lia)). assert (UP2 := powp_dn q (fixq hi, -100)%Z C).
  assert (V1 := val_nonneg (fixq x, -100)%Z ltac:(cbn [fst]; lia)). assert (I1 := pow_incr _ _ (Pos.to_nat p) (conj V1 X1)). assert (I2 := pow_incr _ _ (Pos.to_nat p) (conj (Rlt_le _ _ PX) X2)).
  assert (V2 := val_nonneg (fixq hi, -100)%Z C).
  split.
  - apply Rle_trans with (1 := L). apply Rnot_lt_le. intro Z. pose proof (pow_lt_mono _ _ (Pos.to_nat q) (conj (Rlt_le _ _ PY) Z) NQ). lra.
  - apply Rle_trans with (2 := H). apply Rnot_lt_le. intro Z. pose proof (pow_lt_mono _ _ (Pos.to_nat q) (conj V2 Z) NQ). lra.
Qed.
