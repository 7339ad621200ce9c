(* Rounding errors of IEEE operations, and conversion between widths as a function on R *)
From Coq Require Import Reals ZArith Lra Lia Bool.
From Flocq Require Import Core BinarySingleNaN Relative Plus_error.
From Verif Require Import RealOps MathModel ColorModel FloatInst FloatProofs.
Open Scope R_scope.

Section E.
Context (prec emax : Z) {Hp : Prec_gt_0 prec} {He : Prec_lt_emax prec emax}.
Notation fl := (binary_float prec emax).
Notation fexp := (SpecFloat.fexp prec emax).
Notation rnd := (round radix2 fexp ZnearestE).
Notation u := (bpow radix2 (- prec)).
Notation eta := (bpow radix2 (2 - emax - prec)).

Lemma u_half : / 2 * bpow radix2 (- prec + 1) = u.
Proof. rewrite bpow_plus. change (bpow radix2 1) with 2. field. Qed.
Lemma eta_half : / 2 * bpow radix2 (SpecFloat.emin prec emax) = eta.
Proof. unfold SpecFloat.emin. replace (3 - emax - prec)%Z with ((2 - emax - prec) + 1)%Z by ring. rewrite bpow_plus. change (bpow radix2 1) with 2. field. Qed.

(* one rounding: a relative and an absolute part *)
Lemma rnd_any x : Rabs (rnd x - x) <= u * Rabs x + eta.
Proof.
  destruct (error_N_FLT radix2 (SpecFloat.emin prec emax) prec Hp (fun x => negb (Z.even x)) x) as (d & t & Hd & Ht & _ & E). 
  change (FLT_exp (SpecFloat.emin prec emax) prec) with fexp in E. rewrite E. rewrite u_half in Hd. rewrite eta_half in Ht.
  replace (x * (1 + d) + t - x) with (d * x + t) by ring. eapply Rle_trans; [apply Rabs_triang|]. rewrite Rabs_mult.
  apply Rplus_le_compat; [|exact Ht]. apply Rmult_le_compat_r; [apply Rabs_pos|exact Hd].
Qed.
(* the rounding of a sum of floats: relative only *)
Lemma rnd_sum (x y : fl) : Rabs (rnd (B2R x + B2R y) - (B2R x + B2R y)) <= u * Rabs (B2R x + B2R y).
Proof.
  destruct (FLT_plus_error_N_ex radix2 (SpecFloat.emin prec emax) prec (fun x => negb (Z.even x)) (B2R x) (B2R y)) as (d & Hd & E); try apply generic_format_B2R.
  change (FLT_exp (SpecFloat.emin prec emax) prec) with fexp in E. rewrite E.
  replace ((B2R x + B2R y) * (1 + d) - (B2R x + B2R y)) with (d * (B2R x + B2R y)) by ring. rewrite Rabs_mult. apply Rmult_le_compat_r; [apply Rabs_pos|].
  eapply Rle_trans; [exact Hd|]. unfold u_ro. rewrite u_half. pose proof (bpow_gt_0 radix2 (- prec)). apply (Rmult_le_reg_r (1 + u)); [lra|]. unfold Rdiv. rewrite Rmult_assoc, Rinv_l by lra. nra.
Qed.

(* a finite result comes from finite operands and is the rounded exact one *)
Lemma overflow_inf s : is_finite_SF (binary_overflow prec emax mode_NE s) = false.
Proof. reflexivity. Qed.
Lemma plus_fin (x y : fl) : is_finite (Bplus mode_NE x y) = true ->
  is_finite x = true /\ is_finite y = true /\ B2R (Bplus mode_NE x y) = rnd (B2R x + B2R y).
Proof.
  intro F. assert (X : is_finite x = true /\ is_finite y = true).
  { destruct x as [|[]| |], y as [|[]| |]; try (split; reflexivity); discriminate. }
  destruct X as [X Y]. split; [exact X|]. split; [exact Y|].
  pose proof (Bplus_correct prec emax _ _ mode_NE x y X Y) as C. cbn [round_mode] in C. destruct (Rlt_bool _ _); [apply C|].
  destruct C as [C _]. rewrite <- is_finite_SF_B2SF, C, overflow_inf in F. discriminate.
Qed.
Lemma minus_fin (x y : fl) : is_finite (Bminus mode_NE x y) = true ->
  is_finite x = true /\ is_finite y = true /\ B2R (Bminus mode_NE x y) = rnd (B2R x - B2R y).
Proof.
  intro F. assert (X : is_finite x = true /\ is_finite y = true).
  { destruct x as [|[]| |], y as [|[]| |]; try (split; reflexivity); discriminate. }
  destruct X as [X Y]. split; [exact X|]. split; [exact Y|].
  pose proof (Bminus_correct prec emax _ _ mode_NE x y X Y) as C. cbn [round_mode] in C. destruct (Rlt_bool _ _); [apply C|].
  destruct C as [C _]. rewrite <- is_finite_SF_B2SF, C, overflow_inf in F. discriminate.
Qed.
Lemma mult_fin (x y : fl) : is_finite (Bmult mode_NE x y) = true ->
  is_finite x = true /\ is_finite y = true /\ B2R (Bmult mode_NE x y) = rnd (B2R x * B2R y).
Proof.
  intro F. assert (X : is_finite x = true /\ is_finite y = true).
  { destruct x as [| | |], y as [| | |]; try (split; reflexivity); discriminate. }
  destruct X as [X Y]. split; [exact X|]. split; [exact Y|].
  pose proof (Bmult_correct prec emax _ _ mode_NE x y) as C. cbn [round_mode] in C. destruct (Rlt_bool _ _); [apply C|].
  rewrite <- is_finite_SF_B2SF, C, overflow_inf in F. discriminate.
Qed.
(* and conversely when the exact result rounds below the overflow threshold *)
Lemma plus_small (x y : fl) : is_finite x = true -> is_finite y = true -> Rabs (rnd (B2R x + B2R y)) < bpow radix2 emax -> is_finite (Bplus mode_NE x y) = true.
Proof. intros X Y H. pose proof (Bplus_correct prec emax _ _ mode_NE x y X Y) as C. cbn [round_mode] in C. rewrite Rlt_bool_true in C by exact H. apply C. Qed.
Lemma mult_small (x y : fl) : is_finite x = true -> is_finite y = true -> Rabs (rnd (B2R x * B2R y)) < bpow radix2 emax -> is_finite (Bmult mode_NE x y) = true.
Proof. intros X Y H. pose proof (Bmult_correct prec emax _ _ mode_NE x y) as C. cbn [round_mode] in C. rewrite Rlt_bool_true in C by exact H. destruct C as (_ & C & _). rewrite C, X, Y. reflexivity. Qed.

(* three products, summed left to right *)
Definition fdot (a b c x y z : fl) : fl := Bplus mode_NE (Bplus mode_NE (Bmult mode_NE a x) (Bmult mode_NE b y)) (Bmult mode_NE c z).
Definition edot (a b c x y z : fl) : R := B2R a * B2R x + B2R b * B2R y + B2R c * B2R z.
Definition adot (a b c x y z : fl) : R := Rabs (B2R a * B2R x) + Rabs (B2R b * B2R y) + Rabs (B2R c * B2R z).

Lemma step_err p q e f a b A B r w : 0 <= w -> Rabs a <= A -> Rabs b <= B -> Rabs (p - a) <= e -> Rabs (q - b) <= f -> Rabs (r - (p + q)) <= w * Rabs (p + q) ->
  Rabs (r - (a + b)) <= (e + f) + w * (A + B + e + f) /\ Rabs (a + b) <= A + B.
Proof.
  intros Hw HA HB He' Hf Hr. assert (S : Rabs (p + q) <= A + B + e + f).
  { replace (p + q) with (a + b + ((p - a) + (q - b))) by ring. eapply Rle_trans; [apply Rabs_triang|]. pose proof (Rabs_triang a b). pose proof (Rabs_triang (p - a) (q - b)). lra. }
  split; [|pose proof (Rabs_triang a b); lra]. replace (r - (a + b)) with ((r - (p + q)) + ((p - a) + (q - b))) by ring.
  eapply Rle_trans; [apply Rabs_triang|]. pose proof (Rabs_triang (p - a) (q - b)). assert (w * Rabs (p + q) <= w * (A + B + e + f)) by (apply Rmult_le_compat_l; assumption). lra.
Qed.
Lemma u_small : (5 <= prec)%Z -> 0 < u <= / 32.
Proof. intro H. split; [apply bpow_gt_0|]. change (/ 32) with (bpow radix2 (-5)). apply bpow_le. lia. Qed.

Lemma fdot_err a b c x y z : (5 <= prec)%Z -> is_finite (fdot a b c x y z) = true ->
  Rabs (B2R (fdot a b c x y z) - edot a b c x y z) <= 4 * u * adot a b c x y z + 4 * eta.
Proof.
  intros P F. unfold fdot in *. apply plus_fin in F. destruct F as (F12 & F3 & E). pose proof F12 as G. apply plus_fin in G. destruct G as (F1 & F2 & E12).
  apply mult_fin in F1, F2, F3. destruct F1 as (_ & _ & E1), F2 as (_ & _ & E2), F3 as (_ & _ & E3).
  pose proof (rnd_any (B2R a * B2R x)) as R1. pose proof (rnd_any (B2R b * B2R y)) as R2. pose proof (rnd_any (B2R c * B2R z)) as R3. rewrite <- E1 in R1. rewrite <- E2 in R2. rewrite <- E3 in R3.
  pose proof (rnd_sum (Bmult mode_NE a x) (Bmult mode_NE b y)) as R12. rewrite <- E12 in R12.
  pose proof (rnd_sum (Bplus mode_NE (Bmult mode_NE a x) (Bmult mode_NE b y)) (Bmult mode_NE c z)) as R. rewrite <- E in R.
  destruct (u_small P) as [U0 U]. pose proof (bpow_gt_0 radix2 (2 - emax - prec)) as T0.
  unfold edot, adot. set (w := u) in *. set (t := eta) in *. clearbody w t.
  destruct (step_err _ _ _ _ _ _ _ _ _ w (Rlt_le _ _ U0) (Rle_refl _) (Rle_refl _) R1 R2 R12) as [S12 A12].
  destruct (step_err _ _ _ _ _ _ _ _ _ w (Rlt_le _ _ U0) A12 (Rle_refl _) S12 R3 R) as [S _].
  eapply Rle_trans; [exact S|]. clear - U0 U T0. set (A := Rabs (B2R a * B2R x)). set (B := Rabs (B2R b * B2R y)). set (C := Rabs (B2R c * B2R z)).
  assert (HA : 0 <= A) by apply Rabs_pos. assert (HB : 0 <= B) by apply Rabs_pos. assert (HC : 0 <= C) by apply Rabs_pos. clearbody A B C.
  assert (W2 : w * w <= w / 32) by nra. assert (W3 : w * w * w <= w / 1024) by nra.
  assert (X : (w * A + t + (w * B + t) + w * (A + B + (w * A + t) + (w * B + t)) + (w * C + t) + w * (A + B + C + (w * A + t + (w * B + t) + w * (A + B + (w * A + t) + (w * B + t))) + (w * C + t)))
    = (3 * w + 3 * (w * w) + w * w * w) * (A + B) + (2 * w + w * w) * C + (3 + 5 * w + 2 * (w * w)) * t) by ring.
  rewrite X. assert (Y1 : (3 * w + 3 * (w * w) + w * w * w) * (A + B) <= (4 * w) * (A + B)) by (apply Rmult_le_compat_r; lra).
  assert (Y2 : (2 * w + w * w) * C <= (4 * w) * C) by (apply Rmult_le_compat_r; lra). assert (Y3 : (3 + 5 * w + 2 * (w * w)) * t <= 4 * t) by (apply Rmult_le_compat_r; lra). lra.
Qed.
Lemma eta_small : (5 <= prec)%Z -> 0 < eta <= / 32.
Proof. intro H. split; [apply bpow_gt_0|]. change (/ 32) with (bpow radix2 (-5)). apply bpow_le. pose proof He. red in H0. lia. Qed.
Lemma rnd_bound M x w : 0 <= w -> (5 <= prec)%Z -> Rabs x <= M -> Rabs (rnd x) <= M + M / 32 + / 32.
Proof.
  intros _ P H. destruct (u_small P) as [U0 U]. destruct (eta_small P) as [T0 T]. pose proof (rnd_any x) as E. pose proof (Rabs_pos x).
  replace (rnd x) with (x + (rnd x - x)) by ring. eapply Rle_trans; [apply Rabs_triang|]. assert (u * Rabs x <= / 32 * M) by (apply Rmult_le_compat; lra). lra.
Qed.
(* no overflow while the products add up to at most half the largest power of two *)
Lemma fdot_finite a b c x y z : (5 <= prec)%Z ->
  is_finite a = true -> is_finite b = true -> is_finite c = true -> is_finite x = true -> is_finite y = true -> is_finite z = true ->
  adot a b c x y z <= bpow radix2 (emax - 1) -> is_finite (fdot a b c x y z) = true.
Proof.
  intros P Fa Fb Fc Fx Fy Fz H. unfold adot in H. assert (M : bpow radix2 emax = 2 * bpow radix2 (emax - 1)) by (replace emax with (1 + (emax - 1))%Z at 1 by ring; rewrite bpow_plus; reflexivity).
  assert (M4 : 4 <= bpow radix2 (emax - 1)). { change 4 with (bpow radix2 2). apply bpow_le. pose proof He. red in H0. lia. }
  set (A := Rabs (B2R a * B2R x)) in *. set (B := Rabs (B2R b * B2R y)) in *. set (C := Rabs (B2R c * B2R z)) in *.
  assert (HA : 0 <= A) by apply Rabs_pos. assert (HB : 0 <= B) by apply Rabs_pos. assert (HC : 0 <= C) by apply Rabs_pos.
  pose proof (rnd_bound A (B2R a * B2R x) 0 ltac:(lra) P (Rle_refl _)) as R1. pose proof (rnd_bound B (B2R b * B2R y) 0 ltac:(lra) P (Rle_refl _)) as R2. pose proof (rnd_bound C (B2R c * B2R z) 0 ltac:(lra) P (Rle_refl _)) as R3.
  assert (F1 : is_finite (Bmult mode_NE a x) = true) by (apply mult_small; try assumption; lra).
  assert (F2 : is_finite (Bmult mode_NE b y) = true) by (apply mult_small; try assumption; lra).
  assert (F3 : is_finite (Bmult mode_NE c z) = true) by (apply mult_small; try assumption; lra).
  pose proof (mult_fin _ _ F1) as (_ & _ & E1). pose proof (mult_fin _ _ F2) as (_ & _ & E2). pose proof (mult_fin _ _ F3) as (_ & _ & E3).
  assert (S12 : Rabs (B2R (Bmult mode_NE a x) + B2R (Bmult mode_NE b y)) <= (A + A / 32 + / 32) + (B + B / 32 + / 32)) by (eapply Rle_trans; [apply Rabs_triang|]; rewrite E1, E2; lra).
  pose proof (rnd_bound _ _ 0 ltac:(lra) P S12) as R12.
  assert (F12 : is_finite (Bplus mode_NE (Bmult mode_NE a x) (Bmult mode_NE b y)) = true) by (apply plus_small; try assumption; lra).
  pose proof (plus_fin _ _ F12) as (_ & _ & E12).
  assert (S : Rabs (B2R (Bplus mode_NE (Bmult mode_NE a x) (Bmult mode_NE b y)) + B2R (Bmult mode_NE c z)) <= ((A + A / 32 + / 32) + (B + B / 32 + / 32)) + ((A + A / 32 + / 32) + (B + B / 32 + / 32)) / 32 + / 32 + (C + C / 32 + / 32))
    by (eapply Rle_trans; [apply Rabs_triang|]; rewrite E12, E3; lra).
  pose proof (rnd_bound _ _ 0 ltac:(lra) P S) as R. unfold fdot. apply plus_small; try assumption. lra.
Qed.

(* lerp: (1 - t) * a + t * b *)
Definition flerp (one a b t : fl) : fl := Bplus mode_NE (Bmult mode_NE (Bminus mode_NE one t) a) (Bmult mode_NE t b).
Lemma rnd_diff (x y : fl) : Rabs (rnd (B2R x - B2R y) - (B2R x - B2R y)) <= u * Rabs (B2R x - B2R y).
Proof. pose proof (rnd_sum x (Bopp y)) as H. rewrite B2R_Bopp in H. exact H. Qed.
Lemma flerp_err one a b t : (5 <= prec)%Z -> B2R one = 1 -> is_finite (flerp one a b t) = true ->
  Rabs (B2R (flerp one a b t) - ((1 - B2R t) * B2R a + B2R t * B2R b)) <= 4 * u * (Rabs ((1 - B2R t) * B2R a) + Rabs (B2R t * B2R b)) + 4 * eta.
Proof.
  intros P O F. unfold flerp in *. apply plus_fin in F. destruct F as (F1 & F2 & E). apply mult_fin in F1, F2. destruct F1 as (F1 & _ & E1), F2 as (_ & _ & E2). apply minus_fin in F1. destruct F1 as (_ & _ & E0).
  pose proof (rnd_diff one t) as R0. rewrite <- E0, O in R0. pose proof (rnd_any (B2R (Bminus mode_NE one t) * B2R a)) as R1. rewrite <- E1 in R1. pose proof (rnd_any (B2R t * B2R b)) as R2. rewrite <- E2 in R2.
  pose proof (rnd_sum (Bmult mode_NE (Bminus mode_NE one t) a) (Bmult mode_NE t b)) as R. rewrite <- E in R.
  destruct (u_small P) as [U0 U]. pose proof (bpow_gt_0 radix2 (2 - emax - prec)) as T0. set (w := u) in *. set (th := eta) in *. clearbody w th.
  set (A := Rabs ((1 - B2R t) * B2R a)) in *. set (B := Rabs (B2R t * B2R b)) in *. assert (HA : 0 <= A) by apply Rabs_pos. assert (HB : 0 <= B) by apply Rabs_pos.
  set (m := B2R (Bminus mode_NE one t)) in *.
  assert (D : Rabs (m * B2R a - (1 - B2R t) * B2R a) <= w * A).
  { replace (m * B2R a - (1 - B2R t) * B2R a) with ((m - (1 - B2R t)) * B2R a) by ring. unfold A. rewrite !Rabs_mult, <- Rmult_assoc. apply Rmult_le_compat_r; [apply Rabs_pos|exact R0]. }
  assert (MB : Rabs (m * B2R a) <= A + w * A).
  { replace (m * B2R a) with ((1 - B2R t) * B2R a + (m * B2R a - (1 - B2R t) * B2R a)) by ring. eapply Rle_trans; [apply Rabs_triang|]. fold A. lra. }
  assert (R1' : Rabs (B2R (Bmult mode_NE (Bminus mode_NE one t) a) - (1 - B2R t) * B2R a) <= 2 * w * A + w * w * A + th).
  { replace (B2R (Bmult mode_NE (Bminus mode_NE one t) a) - (1 - B2R t) * B2R a) with ((B2R (Bmult mode_NE (Bminus mode_NE one t) a) - m * B2R a) + (m * B2R a - (1 - B2R t) * B2R a)) by ring.
    eapply Rle_trans; [apply Rabs_triang|]. assert (w * Rabs (m * B2R a) <= w * (A + w * A)) by (apply Rmult_le_compat_l; lra). lra. }
  destruct (step_err _ _ _ _ _ _ A B _ w (Rlt_le _ _ U0) (Rle_refl _) (Rle_refl _) R1' R2 R) as [S _]. eapply Rle_trans; [exact S|]. clear - U0 U T0 HA HB. clearbody A B.
  assert (W2 : w * w <= w / 32) by nra. assert (W3 : w * w * w <= w / 1024) by nra.
  assert (X : 2 * w * A + w * w * A + th + (w * B + th) + w * (A + B + (2 * w * A + w * w * A + th) + (w * B + th)) = (3 * w + 3 * (w * w) + w * w * w) * A + (2 * w + w * w) * B + (2 + 2 * w) * th) by ring.
  rewrite X. assert (Y1 : (3 * w + 3 * (w * w) + w * w * w) * A <= (4 * w) * A) by (apply Rmult_le_compat_r; lra).
  assert (Y2 : (2 * w + w * w) * B <= (4 * w) * B) by (apply Rmult_le_compat_r; lra). assert (Y3 : (2 + 2 * w) * th <= 4 * th) by (apply Rmult_le_compat_r; lra). lra.
Qed.
Lemma mult_one (one a : fl) : is_finite one = true -> B2R one = 1 -> is_finite a = true -> is_finite (Bmult mode_NE one a) = true /\ B2R (Bmult mode_NE one a) = B2R a.
Proof.
  intros F1 O Fa. assert (V : rnd (B2R one * B2R a) = B2R a) by (rewrite O, Rmult_1_l; apply round_generic; auto with typeclass_instances; apply generic_format_B2R).
  assert (F : is_finite (Bmult mode_NE one a) = true) by (apply mult_small; try assumption; rewrite V; apply abs_B2R_lt_emax). split; [exact F|]. rewrite <- V. apply mult_fin, F.
Qed.
Lemma mult_zero (z a : fl) : is_finite z = true -> B2R z = 0 -> is_finite a = true -> is_finite (Bmult mode_NE z a) = true /\ B2R (Bmult mode_NE z a) = 0.
Proof.
  intros F1 O Fa. assert (V : rnd (B2R z * B2R a) = 0) by (rewrite O, Rmult_0_l; apply round_0; auto with typeclass_instances).
  assert (F : is_finite (Bmult mode_NE z a) = true) by (apply mult_small; try assumption; rewrite V, Rabs_R0; apply bpow_gt_0). split; [exact F|]. rewrite <- V. apply mult_fin, F.
Qed.
Lemma plus_value (x y v : fl) : is_finite x = true -> is_finite y = true -> B2R x + B2R y = B2R v -> is_finite (Bplus mode_NE x y) = true /\ B2R (Bplus mode_NE x y) = B2R v.
Proof.
  intros X Y E. assert (V : rnd (B2R x + B2R y) = B2R v) by (rewrite E; apply round_generic; auto with typeclass_instances; apply generic_format_B2R).
  assert (F : is_finite (Bplus mode_NE x y) = true) by (apply plus_small; try assumption; rewrite V; apply abs_B2R_lt_emax). split; [exact F|]. rewrite <- V. apply plus_fin, F.
Qed.
Lemma minus_value (x y v : fl) : is_finite x = true -> is_finite y = true -> B2R x - B2R y = B2R v -> is_finite (Bminus mode_NE x y) = true /\ B2R (Bminus mode_NE x y) = B2R v.
Proof.
  intros X Y E. assert (V : rnd (B2R x - B2R y) = B2R v) by (rewrite E; apply round_generic; auto with typeclass_instances; apply generic_format_B2R).
  pose proof (Bminus_correct prec emax _ _ mode_NE x y X Y) as C. cbn [round_mode] in C. rewrite Rlt_bool_true in C by (rewrite V; apply abs_B2R_lt_emax). destruct C as (C1 & C2 & _). rewrite C1. split; assumption.
Qed.
Lemma flerp_ends one a b t : is_finite one = true -> B2R one = 1 -> is_finite a = true -> is_finite b = true -> is_finite t = true ->
  (B2R t = 0 -> is_finite (flerp one a b t) = true /\ B2R (flerp one a b t) = B2R a) /\ (B2R t = 1 -> is_finite (flerp one a b t) = true /\ B2R (flerp one a b t) = B2R b).
Proof.
  intros F1 O Fa Fb Ft. split; intro T; unfold flerp.
  - destruct (minus_value one t one F1 Ft ltac:(lra)) as [M1 M2]. rewrite O in M2. destruct (mult_one _ _ M1 M2 Fa) as [P1 P2]. destruct (mult_zero _ _ Ft T Fb) as [Q1 Q2]. apply plus_value; try assumption. lra.
  - destruct (minus_value one t (B754_zero false) F1 Ft ltac:(cbn [B2R]; lra)) as [M1 M2]. cbn [B2R] in M2. destruct (mult_zero _ _ M1 M2 Fa) as [P1 P2]. destruct (mult_one _ _ Ft T Fb) as [Q1 Q2]. apply plus_value; try assumption. lra.
Qed.
End E.

(* ---- conversion between widths ---- *)
Section Conv.
Context (p1 e1 p2 e2 : Z) {Hp1 : Prec_gt_0 p1} {He1 : Prec_lt_emax p1 e1} {Hp2 : Prec_gt_0 p2} {He2 : Prec_lt_emax p2 e2}.
Notation fl1 := (binary_float p1 e1).
Notation rnd2 := (round radix2 (SpecFloat.fexp p2 e2) ZnearestE).
Definition sat (x : R) : R := Rmax (- bpow radix2 e2) (Rmin (bpow radix2 e2) x).
Lemma sat_mono x y : x <= y -> sat x <= sat y.
Proof. intro H. unfold sat. apply Rle_max_compat_l. apply Rle_min_compat_l, H. Qed.
Lemma sat_in x : Rabs x < bpow radix2 e2 -> sat x = x.
Proof. intro H. apply Rabs_def2 in H. unfold sat. rewrite Rmin_right by lra. apply Rmax_right. lra. Qed.
Lemma sat_high x : bpow radix2 e2 <= x -> sat x = bpow radix2 e2.
Proof. intro H. unfold sat. pose proof (bpow_gt_0 radix2 e2). rewrite Rmin_left by lra. apply Rmax_right. lra. Qed.
Lemma sat_low x : x <= - bpow radix2 e2 -> sat x = - bpow radix2 e2.
Proof. intro H. unfold sat. pose proof (bpow_gt_0 radix2 e2). rewrite Rmin_right by lra. apply Rmax_left. lra. Qed.

Lemma conv_ev (x : fl1) : (e2 <= e1)%Z -> is_nan x = false -> is_nan (b_conv p1 e1 p2 e2 x) = false /\ ev p2 e2 (b_conv p1 e1 p2 e2 x) = sat (rnd2 (ev p1 e1 x)).
Proof.
  intros EE N. assert (BP : forall s, rnd2 (if s : bool then - bpow radix2 e1 else bpow radix2 e1) = if s then - bpow radix2 e1 else bpow radix2 e1).
  { assert (G : generic_format radix2 (SpecFloat.fexp p2 e2) (bpow radix2 e1)). { apply generic_format_bpow. unfold SpecFloat.fexp, SpecFloat.emin. pose proof He2. pose proof Hp2. red in H, H0. lia. }
    intros []; apply round_generic; auto with typeclass_instances. apply generic_format_opp, G. }
  assert (LE : bpow radix2 e2 <= bpow radix2 e1) by (apply bpow_le, EE).
  destruct x as [s|s| |s m e B]; [| |discriminate|].
  - split; [reflexivity|]. unfold b_conv, ev. cbn [B2R]. rewrite round_0 by auto with typeclass_instances. rewrite sat_in; [reflexivity|]. rewrite Rabs_R0. apply bpow_gt_0.
  - split; [reflexivity|]. specialize (BP s). unfold b_conv, ev. destruct s; rewrite BP; symmetry; [apply sat_low|apply sat_high]; lra.
  - unfold b_conv. pose proof (binary_normalize_correct p2 e2 _ _ mode_NE (cond_Zopp s (Zpos m)) e s) as C. cbv zeta in C. cbn [round_mode] in C.
    change (F2R (Float radix2 (cond_Zopp s (Z.pos m)) e)) with (B2R (B754_finite s m e B : fl1)) in C. 
    assert (V : ev p1 e1 (B754_finite s m e B) = B2R (B754_finite s m e B : fl1)) by reflexivity. rewrite V. set (v := B2R (B754_finite s m e B : fl1)) in *.
    set (y := binary_normalize _ _ _ _ _ _ _ _) in *. clearbody y. destruct (Rlt_bool_spec (Rabs (rnd2 v)) (bpow radix2 e2)) as [L|L].
    + destruct C as (C1 & C2 & _). split; [destruct y; [reflexivity..|discriminate|reflexivity]|]. rewrite (ev_fin _ _ _ C2), C1, sat_in by exact L. reflexivity.
    + assert (SG : Rlt_bool v 0 = s). { unfold v. cbn [B2R]. destruct s; cbn [cond_Zopp]; [apply Rlt_bool_true, F2R_lt_0; reflexivity|apply Rlt_bool_false, F2R_ge_0; discriminate]. }
      rewrite SG in C. assert (Y : y = B754_infinity s) by (destruct y; cbn in C; try discriminate; injection C as ->; reflexivity). rewrite Y. split; [reflexivity|]. unfold ev.
      destruct s.
      * symmetry. apply sat_low. destruct (Rlt_bool_spec v 0) as [Q|Q]; [|discriminate]. rewrite Rabs_left1 in L; [lra|]. rewrite <- (round_0 radix2 (SpecFloat.fexp p2 e2) ZnearestE). apply round_le; auto with typeclass_instances. lra.
      * symmetry. apply sat_high. destruct (Rlt_bool_spec v 0) as [Q|Q]; [discriminate|]. rewrite Rabs_pos_eq in L; [lra|]. rewrite <- (round_0 radix2 (SpecFloat.fexp p2 e2) ZnearestE). apply round_le; auto with typeclass_instances.
Qed.
(* a value already in the narrower format is kept, sign and all *)
Lemma conv_exact (x : fl1) (y : binary_float p2 e2) : is_finite x = true -> is_finite y = true -> B2R x = B2R y -> Bsign x = Bsign y -> b_conv p1 e1 p2 e2 x = y.
Proof.
  intros Fx Fy V S. destruct x as [s|s| |s m e B]; try discriminate.
  - cbn in V, S. subst s. destruct y as [s|s| |s m e B]; try discriminate; [reflexivity|]. exfalso. revert V. cbn [B2R]. intro V. symmetry in V. apply eq_0_F2R in V. destruct s; discriminate.
  - unfold b_conv. pose proof (binary_normalize_correct p2 e2 _ _ mode_NE (cond_Zopp s (Zpos m)) e s) as C. cbv zeta in C. cbn [round_mode] in C.
    change (F2R (Float radix2 (cond_Zopp s (Z.pos m)) e)) with (B2R (B754_finite s m e B : fl1)) in C. rewrite V in C.
    rewrite round_generic in C by (auto with typeclass_instances; apply generic_format_B2R). rewrite Rlt_bool_true in C by apply abs_B2R_lt_emax.
    destruct C as (C1 & C2 & C3). apply B2R_Bsign_inj; try assumption. rewrite C3, <- V, <- S. cbn [Bsign B2R].
    destruct s; cbn [cond_Zopp].
    + rewrite Rcompare_Lt; [reflexivity|]. apply F2R_lt_0. reflexivity.
    + rewrite Rcompare_Gt; [reflexivity|]. apply F2R_gt_0. reflexivity.
Qed.
End Conv.
