(* C101, continued: the encoded references of ALEXA Wide Gamut *)
From Coq Require Import Reals ZArith QArith Qreals Lra Lia Bool List.
From Flocq Require Import Core.
From Verif Require Import Outcome RealOps MathModel ColorModel AdaptModel SpaceModel TransformModel XReal SpecLin VspdModel MatProofs AdaptProofs SpaceProofs ConvMat ConvProofs PropConv PowProofs PropRef PropRefEnc LogProofs ExpProofs.
From Verif Require Import DataReference DataLogc.
Import ListNotations.
Open Scope R_scope.

Definition ln2z : Z := 12786308645202655660.
Definition ln54z : Z := 4116271982791902040.
Lemma ln2_near : Rabs (ln 2 - fx ln2z) <= 5e-17.
Proof. destruct (ln_check_ok 100 2 ln2z ltac:(vm_compute; reflexivity)) as [_ H]. replace (Q2R 2) with 2 in H by lra. change (fx 100) with (100 / 18446744073709551616) in H. lra. Qed.
Lemma ln54_near : Rabs (ln 1.25 - fx ln54z) <= 5e-17.
Proof. destruct (ln_check_ok 100 1.25%Q ln54z ltac:(vm_compute; reflexivity)) as [_ H]. change (fx 100) with (100 / 18446744073709551616) in H. lra. Qed.
Lemma ln10_near : Rabs (ln 10 - (fx ln54z + 3 * fx ln2z)) <= 2e-16.
Proof.
  replace (ln 10) with (ln 1.25 + 3 * ln 2). 2: { replace 10 with (1.25 * (2 * (2 * 2))) by lra. rewrite !ln_mult by lra. ring. }
  pose proof ln2_near as A. pose proof ln54_near as B. apply Rabs_le_inv in A, B. apply Rabs_le. lra.
Qed.
Definition ln2q : Q := Qmake ln2z 18446744073709551616.
Definition ln10q : Q := Qmake (ln54z + 3 * ln2z) 18446744073709551616.
Definition octave (z : Q) : nat := if Qle_bool 32 z then 5 else if Qle_bool 16 z then 4 else if Qle_bool 8 z then 3 else if Qle_bool 4 z then 2 else if Qle_bool 2 z then 1 else 0.
Definition log_check (x e : Q) : bool :=
  let z := (8 * (5.555556 * x + 0.052272))%Q in
  let n := octave z in
  let w := (z * (1 # Pos.of_nat (2 ^ n)))%Q in
  let r := (((e - 0.385537) / 0.247190) * ln10q - (Z.of_nat n - 3 # 1) * ln2q)%Q in
  let k := (Qnum r * one / Zpos (Qden r))%Z in
  (Qle_bool 0.011 x && Qle_bool 0.2 e && Qle_bool e 0.6 && ln_check 90000 w k)%bool.
Lemma octave_le z : (octave z <= 5)%nat.
Proof. unfold octave. repeat destruct (Qle_bool _ _); lia. Qed.
Lemma floor_fx (r : Q) : let k := (Qnum r * one / Zpos (Qden r))%Z in Q2R r - / IZR one <= fx k <= Q2R r.
Proof.
  intro k. pose proof one_pos as P. assert (D : 0 < IZR (Zpos (Qden r))) by (apply IZR_lt; reflexivity).
  pose proof (Z.mul_div_le (Qnum r * one) (Zpos (Qden r)) ltac:(reflexivity)) as A. pose proof (Z.mul_succ_div_gt (Qnum r * one) (Zpos (Qden r)) ltac:(reflexivity)) as B. fold k in A, B. apply IZR_le in A. apply IZR_lt in B. rewrite !mult_IZR in A, B. rewrite succ_IZR in B.
  unfold fx, Q2R. split; apply (Rmult_le_reg_r (IZR one * IZR (Zpos (Qden r)))); try (apply Rmult_lt_0_compat; assumption).
  - replace ((IZR (Qnum r) * / IZR (Zpos (Qden r)) - / IZR one) * (IZR one * IZR (Zpos (Qden r)))) with (IZR (Qnum r) * IZR one - IZR (Zpos (Qden r))) by (field; lra). replace (IZR k / IZR one * (IZR one * IZR (Zpos (Qden r)))) with (IZR k * IZR (Zpos (Qden r))) by (field; lra). lra.
  - replace (IZR (Qnum r) * / IZR (Zpos (Qden r)) * (IZR one * IZR (Zpos (Qden r)))) with (IZR (Qnum r) * IZR one) by (field; lra). replace (IZR k / IZR one * (IZR one * IZR (Zpos (Qden r)))) with (IZR k * IZR (Zpos (Qden r))) by (field; lra). lra.
Qed.
Lemma shift_ln z n : 0 < z -> ln z = ln (z * / 2 ^ n) + INR n * ln 2.
Proof. intro H. assert (P : 0 < 2 ^ n) by (apply pow_lt; lra). rewrite <- ln_pow by lra. rewrite <- ln_mult; [f_equal; field; lra|apply Rmult_lt_0_compat; [exact H|apply Rinv_0_lt_compat, P]|exact P]. Qed.
Lemma q2r_pow n : Q2R (1 # Pos.of_nat (2 ^ n)) = / 2 ^ n.
Proof.
  unfold Q2R. cbn [Qnum Qden]. rewrite Rmult_1_l. f_equal. assert (N : (2 ^ n <> 0)%nat) by (apply Nat.pow_nonzero; lia). rewrite <- positive_nat_Z, Nat2Pos.id by exact N. rewrite <- INR_IZR_INZ, pow_INR. reflexivity.
Qed.
Lemma log_check_ok x e : log_check x e = true -> Rabs (encA (Q2R x) - Q2R e) <= 1 / 10 ^ 15.
Proof.
  unfold log_check. set (z := (8 * _)%Q). pose proof (octave_le z) as N5. set (n := octave z) in *. clearbody n. set (r := (_ - _)%Q). pose proof (floor_fx r) as FK. set (k := (_ / _)%Z) in *. clearbody k. set (w := (z * _)%Q). rewrite !andb_true_iff. intros (((X & E1) & E2) & H). apply qle_t in X, E1, E2. apply ln_check_ok in H. destruct H as [W H].
  assert (Zv : Q2R z = 8 * (5.555556 * Q2R x + 0.052272)) by (unfold z; rewrite !Q2R_mult, Q2R_plus, Q2R_mult; replace (Q2R 8) with 8 by lra; reflexivity).
  assert (Wv : Q2R w = Q2R z * / 2 ^ n) by (unfold w; rewrite Q2R_mult, q2r_pow; reflexivity).
  set (y := (Q2R e - 0.385537) / 0.247190). assert (Y : -1 <= y <= 1) by (unfold y; lra).
  assert (A10 : Q2R ln10q = fx ln54z + 3 * fx ln2z) by (unfold ln10q, fx, Q2R; cbn [Qnum Qden]; rewrite plus_IZR, mult_IZR; unfold one; change (2 ^ 64)%Z with 18446744073709551616%Z; field).
  assert (Rv : Q2R r = y * Q2R ln10q - (INR n - 3) * Q2R ln2q).
  { unfold r. rewrite Q2R_minus, !Q2R_mult, Q2R_div, Q2R_minus by discriminate. f_equal. f_equal. unfold Q2R at 1. cbn [Qnum Qden]. rewrite minus_IZR, <- INR_IZR_INZ. field. }
  assert (L8 : ln (5.555556 * Q2R x + 0.052272) = ln (Q2R w) + (INR n - 3) * ln 2).
  { assert (ZP : 0 < Q2R z) by (rewrite Zv; lra). pose proof (shift_ln (Q2R z) n ZP) as S. rewrite <- Wv in S. assert (S2 : ln (Q2R z) = ln (5.555556 * Q2R x + 0.052272) + 3 * ln 2); [|lra]. rewrite Zv. replace 8 with (2 * (2 * 2)) by lra. rewrite !ln_mult by lra. ring. }
  pose proof ln2_near as N2. pose proof ln10_near as N10. change (Q2R ln2q) with (fx ln2z) in Rv. rewrite A10 in Rv. change (fx 90000) with (90000 / 18446744073709551616) in H. change (/ IZR one) with (/ 18446744073709551616) in FK.
  set (l10 := fx ln54z + 3 * fx ln2z) in *. set (l2 := fx ln2z) in *. clearbody l10 l2. set (nn := INR n - 3) in *. assert (NN : -3 <= nn <= 2). { unfold nn. pose proof (pos_INR n). apply le_INR in N5. cbn [INR] in N5. lra. }
  assert (D2 : Rabs (nn * (ln 2 - l2)) <= 3 * 5e-17) by (rewrite Rabs_mult; apply Rmult_le_compat; try apply Rabs_pos; [apply Rabs_le; lra|exact N2]).
  assert (D10 : Rabs (y * (ln 10 - l10)) <= 1 * 2e-16) by (rewrite Rabs_mult; apply Rmult_le_compat; try apply Rabs_pos; [apply Rabs_le; lra|exact N10]).
  assert (G : Rabs (ln (5.555556 * Q2R x + 0.052272) - y * ln 10) <= 6e-15). { rewrite L8. apply Rabs_le_inv in D2, D10, H. apply Rabs_le. lra. }
  unfold encA. destruct (Rle_dec (Q2R x) _) as [C|_]; [exfalso; lra|]. unfold eLog, lg. pose proof ln10_two as T. set (lz := ln (5.555556 * Q2R x + 0.052272)) in *. clearbody lz.
  replace (0.247190 * (lz / ln 10) + 0.385537 - Q2R e) with (0.247190 * ((lz - y * ln 10) / ln 10)) by (replace (Q2R e) with (0.247190 * y + 0.385537) by (unfold y; lra); set (c1 := Q2R 0.247190); set (c2 := Q2R 0.385537); field; lra).
  rewrite Rabs_mult, (Rabs_pos_eq 0.247190) by lra. unfold Rdiv at 1. rewrite Rabs_mult, (Rabs_pos_eq (/ ln 10)) by (left; apply Rinv_0_lt_compat; lra). assert (I : / ln 10 <= / 2) by (apply Rinv_le_contravar; lra). assert (I0 : 0 <= / ln 10) by (left; apply Rinv_0_lt_compat; lra).
  assert (Q : Rabs (lz - y * ln 10) * / ln 10 <= 6e-15 * / 2) by (apply Rmult_le_compat; try assumption; apply Rabs_pos). lra.
Qed.
Definition log3 (p r : QArith_base.Q * QArith_base.Q * QArith_base.Q) : bool := (log_check (fst (fst p)) (fst (fst r)) && log_check (snd (fst p)) (snd (fst r)) && log_check (snd p) (snd r))%bool.
Lemma log_coded : all2 log3 data_ALEXA_WIDE_GAMUT_LINEAR data_ALEXA_WIDE_GAMUT_ENCODED = true.
Proof. vm_compute. reflexivity. Qed.
Section G.
Context {K : XConst}.
Theorem C101_encoded_logc : Forall2 (fun p r => near_rgb (1 / 10 ^ 15) r (cs_encode ALEXA_WIDE_GAMUT (ref_rgb p))) data_ALEXA_WIDE_GAMUT_LINEAR data_ALEXA_WIDE_GAMUT_ENCODED.
Proof.
  refine (f2_impl _ _ _ _ _ (all2_ok _ _ _ log_coded)). intros p r [_ N]. unfold log3 in N. rewrite !andb_true_iff in N. destruct N as [[N1 N2] N3]. apply log_check_ok in N1, N2, N3.
  assert (C : forall x e : QArith_base.Q, Rabs (encA (Q2R x) - Q2R e) <= 1 / 10 ^ 15 -> nearc (1 / 10 ^ 15) e (enc_alexa_t (Fin (Q2R x)))) by (intros x e H; eexists; split; [apply (proj1 alexa_x)|exact H]).
  exact (conj (C _ _ N1) (conj (C _ _ N2) (C _ _ N3))).
Qed.
(* white in red: 0.9116... becomes 0.5607... *)
Example C101_logc_example : exists v, enc_alexa_t (Fin (Q2R 0.911648134646781072021327)) = Fin v /\ Rabs (v - 0.560798190790710804343178) <= 1 / 10 ^ 15.
Proof. eexists. split; [apply (proj1 alexa_x)|]. apply log_check_ok. vm_compute. reflexivity. Qed.
End G.
