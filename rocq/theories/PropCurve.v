(* C87: integer pixels survive decoding to linear light and encoding again, in the code's own arithmetic *)
From Coq Require Import Reals ZArith QArith Qreals Lra Lia Bool List.
From Flocq Require Import Core BinarySingleNaN.
From Verif Require Import Outcome RealOps MathModel ColorModel SpaceModel XReal FloatInst FloatProofs ErrProofs TransferProofs PropPixel RelErr CurveProofs.
Import ListNotations.
Open Scope R_scope.

Section Fmt.
Context (prec emax : Z) {Hp : Prec_gt_0 prec} {He : Prec_lt_emax prec emax}.
Notation fl := (binary_float prec emax).
Notation u := (bpow radix2 (- prec)).
Notation tiny := (bpow radix2 (2 - emax)).
Notation rnd := (round radix2 (SpecFloat.fexp prec emax) ZnearestE).
Context (P5 : (24 <= prec)%Z) (E5 : (128 <= emax)%Z).
Context (L : libm fl) (lit : Q -> fl).
Notation ops := (b_ops prec emax L lit).

(* f moves no number of the unit interval that is zero or above the least code by more than E *)
Definition stays (f : fl -> fl) (E : R) : Prop := forall x, is_finite x = true -> B2R x = 0 \/ / 70000 <= B2R x <= 1 -> is_finite (f x) = true /\ Rabs (B2R (f x) - B2R x) <= E.

Lemma code_range N k : (1 <= N <= 65535)%Z -> (0 <= k <= N)%Z -> let x := @dequantize _ ops N k in
  is_finite x = true /\ (B2R x = 0 \/ / 70000 <= B2R x <= 1).
Proof.
  intros HN Hk x. assert (PW : (65535 <= 2 ^ prec)%Z). { apply Z.le_trans with (2 ^ 24)%Z; [lia|]. apply Z.pow_le_mono_r; lia. }
  destruct (dequantize_spec prec emax L lit N k ltac:(lia) Hk) as (F & V & B). split; [exact F|]. fold x in V. rewrite V.
  destruct (Z.eq_dec k 0) as [->|K0]; [left; unfold Rdiv; rewrite Rmult_0_l; apply round_0; auto with typeclass_instances|]. right. split; [|apply B].
  pose proof (dequantize_err prec emax L lit N k ltac:(lia) Hk) as E. fold x in E. rewrite V in E. destruct (CurveProofs.u24 prec P5) as [U0 U]. apply Rabs_le_inv in E.
  assert (1 <= IZR k) by (apply IZR_le; lia). assert (1 <= IZR N <= 65535) by (split; apply IZR_le; lia).
  set (r := rnd _) in *. apply Rnot_lt_le. intro C. assert (r * IZR N <= / 70000 * 65535) by (apply Rmult_le_compat; lra). assert (IZR N * u <= 65535 * / 10000000) by (apply Rmult_le_compat; lra). lra.
Qed.
Lemma codes_stay f E N k : stays f E -> (1 <= N <= 65535)%Z -> (0 <= k <= N)%Z -> IZR N * (E + 2 * u) < / 2 ->
  @quantize _ ops N (f (@dequantize _ ops N k)) = k.
Proof.
  intros S HN Hk B. destruct (code_range N k HN Hk) as [F R]. destruct (S _ F R) as [G D]. set (x := @dequantize _ ops N k) in *.
  assert (PW : (65535 <= 2 ^ prec)%Z). { apply Z.le_trans with (2 ^ 24)%Z; [lia|]. apply Z.pow_le_mono_r; lia. }
  apply (quantize_half prec emax); try lia; [exact G|]. pose proof (dequantize_err prec emax L lit N k ltac:(lia) Hk) as DE. fold x in DE.
  assert (N1 : 1 <= IZR N) by (apply IZR_le; lia).
  replace (B2R (f x) * IZR N - IZR k) with ((B2R (f x) - B2R x) * IZR N + (B2R x * IZR N - IZR k)) by ring.
  pose proof (Rabs_triang ((B2R (f x) - B2R x) * IZR N) (B2R x * IZR N - IZR k)) as T. rewrite Rabs_mult, (Rabs_pos_eq (IZR N)) in T by lra.
  assert (Rabs (B2R (f x) - B2R x) * IZR N <= E * IZR N) by (apply Rmult_le_compat_r; lra). lra.
Qed.

(* ---- the literals ---- *)
Definition lit_ok (l : Q -> fl) : Prop := (forall q, 0.001 <= Q2R q <= 100 -> is_finite (l q) = true /\ rel (1.01 * u) (B2R (l q)) (Q2R q)) /\ B2R (l 1.0%Q) = 1.
Lemma litd_ok : lit_ok (b_of_Q prec emax).
Proof.
  split.
  - intros q H. pose proof (tiny_le emax E5). destruct (b_of_Q_correct prec emax q) as (V & F & _); [apply (rnd_below prec emax P5 E5); lra|]. split; [exact F|]. rewrite V. destruct (CurveProofs.u24 prec P5).
    eapply rel_weaken; [apply (rnd_rel prec emax); lra|lra|]. pose proof (bpow_gt_0 radix2 (2 - emax)). lra.
  - destruct (b_of_Q_int prec emax 1.0%Q 1) as [V _]; [clear; q2r; lra| |exact V]. apply Z.le_trans with (2 ^ 0)%Z; [reflexivity|]. apply Z.pow_le_mono_r; lia.
Qed.
Context (LO : lit_ok lit).
Notation pw := (l_powf L).
Context (PW : powf_ok prec emax pw).

Lemma l_pos q r : Q2R q = r -> 0.001 <= r <= 100 -> is_finite (lit q) = true /\ rel (1.01 * u) (B2R (lit q)) r.
Proof. intros <- H. apply LO, H. Qed.
Lemma one_fin l : lit_ok l -> is_finite (l 1.0%Q) = true.
Proof. intro H. apply H. clear; q2r; lra. Qed.
Lemma recip l x r : lit_ok l -> is_finite x = true -> rel (1.01 * u) (B2R x) r -> 0.4 <= r <= 3 ->
  is_finite (Bdiv mode_NE (l 1.0%Q) x) = true /\ rel (3 * u) (B2R (Bdiv mode_NE (l 1.0%Q) x)) (/ r).
Proof.
  intros HL F R H. destruct (CurveProofs.u24 prec P5) as [U0 U]. pose proof (one_fin l HL) as F1. destruct HL as [_ V]. pose proof (rel_bounds _ _ _ R) as B.
  assert (I : / 3 <= / r <= 2.5) by (split; [|replace 2.5 with (/ 0.4) by lra]; apply Rinv_le; lra).
  pose proof (rel_inv (1.01 * u) (B2R x) r ltac:(lra) ltac:(lra) R) as RI. pose proof (rel_bounds _ _ _ RI) as BI.
  assert (V2 : B2R (l 1.0%Q) / B2R x = / B2R x) by (rewrite V; unfold Rdiv; apply Rmult_1_l).
  assert (M : 0.1 <= / B2R x <= 100) by (clear - BI I U0 U; nra). pose proof (tiny_le emax E5) as [T0 T].
  destruct (fdiv prec emax (l 1.0%Q) x F1 ltac:(clear - B H U0 U; nra)) as [F2 E2]; [rewrite V2; apply (rnd_below prec emax P5 E5); lra|].
  split; [exact F2|]. rewrite E2, V2. pose proof (rnd_rel prec emax (/ B2R x) ltac:(lra)) as R2.
  pose proof (rel_trans _ _ _ _ _ R2 RI ltac:(lra) ltac:(lra) ltac:(lra)) as R3. eapply rel_weaken; [exact R3| |]; lra.
Qed.
Lemma lit_abs q r : Q2R q = r -> 0.001 <= r <= 1 -> Rabs (B2R (lit q) - r) <= 1.3 * u.
Proof. intros E H. destruct (l_pos q r E ltac:(lra)) as [_ R]. destruct (CurveProofs.u24 prec P5) as [U0 U]. eapply Rle_trans; [exact R|]. assert (u * r <= u * 1) by (apply Rmult_le_compat_l; lra). lra. Qed.

Lemma le_cases (x y : fl) : is_finite x = true -> is_finite y = true -> (Bleb x y = true /\ B2R x <= B2R y) \/ (Bleb x y = false /\ B2R y <= B2R x).
Proof.
  intros X Y. assert (forall z : fl, is_finite z = true -> is_nan z = false) as NN by (intros [] Z; try discriminate; reflexivity).
  rewrite (ev_leb prec emax) by (apply NN; assumption). rewrite !(ev_fin prec emax) by assumption. destruct (Rle_bool_spec (B2R x) (B2R y)); [left|right]; split; try reflexivity; lra.
Qed.
Lemma lt_cases (x y : fl) : is_finite x = true -> is_finite y = true -> (Bltb x y = true /\ B2R x <= B2R y) \/ (Bltb x y = false /\ B2R y <= B2R x).
Proof.
  intros X Y. assert (forall z : fl, is_finite z = true -> is_nan z = false) as NN by (intros [] Z; try discriminate; reflexivity).
  rewrite (ev_ltb prec emax) by (apply NN; assumption). rewrite !(ev_fin prec emax) by assumption. destruct (Rlt_bool_spec (B2R x) (B2R y)); [left|right]; split; try reflexivity; lra.
Qed.

Lemma unit x : B2R x = 0 \/ / 70000 <= B2R (x : fl) <= 1 -> 0 <= B2R x <= 1.
Proof. intros [->|H]; lra. Qed.
Ltac weak H := eapply rel_weaken; [exact H| |]; lra.

Lemma knee_srgb : Rabs (1.055 * Rpower 0.0031308 (/ 2.4) - 0.055 - 0.0031308 * 12.92) <= 3e-8.
Proof.
  assert (A : (0.0031308 * 12.92 + 0.055 - 3e-8) / 1.055 < Rpower 0.0031308 (/ 2.4)) by (apply (lt_frac_power _ _ 5 12); [lra|lra|cbn; lra|lia|]; lra).
  assert (B : Rpower 0.0031308 (/ 2.4) < (0.0031308 * 12.92 + 0.055 + 3e-8) / 1.055) by (apply (gt_frac_power _ _ 5 12); [lra|lra|cbn; lra|lia|]; lra).
  apply Rabs_le. lra.
Qed.
Lemma knee_bt : Rabs (1.099 * Rpower 0.018 (/ / 0.45) - 0.099 - 0.018 * 4.5) <= 2.5e-4.
Proof.
  rewrite Rinv_inv.
  assert (A : (0.018 * 4.5 + 0.099) / 1.099 < Rpower 0.018 0.45) by (apply (lt_frac_power _ _ 9 20); [lra|lra|cbn; lra|lia|]; lra).
  assert (B : Rpower 0.018 0.45 < (0.018 * 4.5 + 0.099 + 2.5e-4) / 1.099) by (apply (gt_frac_power _ _ 9 20); [lra|lra|cbn; lra|lia|]; lra).
  apply Rabs_le. lra.
Qed.

Lemma srgb_pair x : is_finite x = true -> 0 <= B2R x <= 1 ->
  stays1 prec emax (@dec_srgb_t _ ops) (@enc_srgb_t _ ops) (75 * u + 3.6e-8) x /\ moves1 prec emax (@dec_srgb_t _ ops) (@enc_srgb_t _ ops) (135 * u + 6.6e-8) x.
Proof.
  intros F H. destruct (CurveProofs.u24 prec P5) as [U0 U]. pose proof (tiny_le emax E5) as [T0 T].
  destruct (l_pos 12.92%Q 12.92 eq_refl ltac:(lra)) as [Fs Rs]. destruct (l_pos 0.055%Q 0.055 eq_refl ltac:(lra)) as [Fo Ro]. destruct (l_pos 1.055%Q 1.055 eq_refl ltac:(lra)) as [Fa Ra].
  destruct (l_pos 2.4%Q 2.4 eq_refl ltac:(lra)) as [Fg Rg]. destruct (l_pos 0.0031308%Q 0.0031308 eq_refl ltac:(lra)) as [F0 R0]. destruct (l_pos 0.040449936%Q 0.040449936 eq_refl ltac:(lra)) as [F1 R1].
  destruct (recip lit (lit 2.4%Q) 2.4 LO Fg Rg ltac:(lra)) as [Fp Rp]. pose proof (one_fin lit LO) as Fone. pose proof (proj2 LO) as Vone.
  pose proof (rel_bounds _ _ _ Ro) as Bo. assert (Ro' : Rabs (B2R (lit 0.055%Q) - 0.055) <= 1.3 * u) by (apply lit_abs; [reflexivity|lra]).
  destruct (fplus prec emax P5 E5 (lit 1.0%Q) (lit 0.055%Q) Fone Fo ltac:(rewrite Vone; lra)) as [Fa2 Ra2].
  assert (Ra2' : rel (3 * u) (B2R (Bplus mode_NE (lit 1.0%Q) (lit 0.055%Q))) 1.055).
  { rewrite Vone in Ra2. assert (S : rel (1.5 * u) (1 + B2R (lit 0.055%Q)) 1.055) by (apply Rabs_le; lra). pose proof (rel_trans _ _ _ _ _ Ra2 S ltac:(lra) ltac:(lra) ltac:(lra)) as S2. weak S2. }
  assert (T1 : 0.0031308 * 12.92 = 0.040449936) by lra.
  replace (75 * u + 3.6e-8) with (75 * u + 1.2 * 3e-8) by lra. replace (135 * u + 6.6e-8) with (135 * u + 2.2 * 3e-8) by lra.
  apply (curve_pair prec emax P5 E5 pw PW 12.92 0.055 1.055 2.4 0.0031308 3e-8) with (fs := lit 12.92%Q) (fo1 := lit 0.055%Q) (fa1 := lit 1.055%Q) (fg := lit 2.4%Q) (fa2 := Bplus mode_NE (lit 1.0%Q) (lit 0.055%Q))
    (fp := Bdiv mode_NE (lit 1.0%Q) (lit 2.4%Q)) (fo2 := lit 0.055%Q) (ft0 := lit 0.0031308%Q) (ft1 := lit 0.040449936%Q) (dec := @dec_srgb_t _ ops) (enc := @enc_srgb_t _ ops); try assumption; try lra.
  1: exact knee_srgb.
  1: weak Rs. 1: weak Ra. 1: weak Rg. 1: weak R0. 1: rewrite T1; weak R1.
  - intros y Fy. unfold dec_srgb_t. cbn [rle rlit radd rdiv rpowf b_ops]. destruct (le_cases y (lit 0.040449936%Q) Fy F1) as [[-> C]|[-> C]]; [left|right]; (split; [exact C|reflexivity]).
  - intros y Fy. unfold enc_srgb_t. cbn [rle rlit rmul rsub radd rdiv rpowf b_ops]. destruct (le_cases y (lit 0.0031308%Q) Fy F0) as [[-> C]|[-> C]]; [left|right]; (split; [exact C|reflexivity]).
Qed.
Lemma srgb_stays : stays (fun x => @enc_srgb_t _ ops (@dec_srgb_t _ ops x)) (75 * u + 3.6e-8).
Proof. intros x F H. apply srgb_pair; [exact F|apply unit, H]. Qed.

(* BT.709 and BT.2020 share their constants; BT.2020 computes the offset as alpha - 1 and compares strictly *)
Lemma bt709_consts : exists fg ft1 fo, fg = Bdiv mode_NE (lit 1.0%Q) (lit 0.45%Q) /\ ft1 = Bmult mode_NE (lit 0.018%Q) (lit 4.5%Q) /\ fo = Bminus mode_NE (lit 1.099%Q) (lit 1.0%Q)
  /\ is_finite fg = true /\ is_finite ft1 = true /\ is_finite fo = true /\ rel (3 * u) (B2R fg) (/ 0.45) /\ rel (4 * u) (B2R ft1) (0.018 * 4.5) /\ Rabs (B2R fo - 0.099) <= 1.3 * u.
Proof.
  destruct (CurveProofs.u24 prec P5) as [U0 U]. pose proof (tiny_le emax E5) as [T0 T].
  destruct (l_pos 4.5%Q 4.5 eq_refl ltac:(lra)) as [Fs Rs]. destruct (l_pos 1.099%Q 1.099 eq_refl ltac:(lra)) as [Fa Ra]. destruct (l_pos 0.45%Q 0.45 eq_refl ltac:(lra)) as [Fp Rp]. destruct (l_pos 0.018%Q 0.018 eq_refl ltac:(lra)) as [F0 R0].
  destruct (recip lit (lit 0.45%Q) 0.45 LO Fp Rp ltac:(lra)) as [Fg Rg]. pose proof (one_fin lit LO) as Fone. pose proof (proj2 LO) as Vone.
  pose proof (rel_mul _ _ _ _ _ _ R0 Rs ltac:(lra) ltac:(lra) ltac:(lra) ltac:(lra)) as RM. pose proof (rel_bounds _ _ _ RM) as BM.
  destruct (fmul prec emax P5 E5 (lit 0.018%Q) (lit 4.5%Q) F0 Fs ltac:(lra)) as [F1 R1].
  pose proof (rel_trans _ _ _ _ _ R1 RM ltac:(lra) ltac:(lra) ltac:(lra)) as R2. pose proof (rel_bounds _ _ _ Ra) as Ba.
  destruct (fminus prec emax P5 E5 (lit 1.099%Q) (lit 1.0%Q) Fa Fone ltac:(rewrite Vone; apply Rabs_le; lra)) as [Fo Ro]. rewrite Vone in Ro.
  do 3 eexists. split; [reflexivity|]. split; [reflexivity|]. split; [reflexivity|]. split; [exact Fg|]. split; [exact F1|]. split; [exact Fo|]. split; [exact Rg|].
  split; [weak R2|]. rewrite (Rabs_pos_eq (B2R (lit 1.099%Q) - 1)) in Ro by lra. apply Rabs_le_inv in Ro. assert (u * (B2R (lit 1.099%Q) - 1) <= u * 0.1) by (apply Rmult_le_compat_l; lra). apply Rabs_le. lra.
Qed.
Lemma bt709_pair x : is_finite x = true -> 0 <= B2R x <= 1 ->
  stays1 prec emax (@dec_bt709_t _ ops) (@enc_bt709_t _ ops) (75 * u + 3e-4) x /\ moves1 prec emax (@dec_bt709_t _ ops) (@enc_bt709_t _ ops) (135 * u + 5.5e-4) x.
Proof.
  intros F H. destruct (CurveProofs.u24 prec P5) as [U0 U]. pose proof (tiny_le emax E5) as [T0 T].
  destruct (l_pos 4.5%Q 4.5 eq_refl ltac:(lra)) as [Fs Rs]. destruct (l_pos 1.099%Q 1.099 eq_refl ltac:(lra)) as [Fa Ra]. destruct (l_pos 0.45%Q 0.45 eq_refl ltac:(lra)) as [Fp Rp]. destruct (l_pos 0.018%Q 0.018 eq_refl ltac:(lra)) as [F0 R0].
  destruct (l_pos 0.099%Q 0.099 eq_refl ltac:(lra)) as [Fo Ro]. assert (Ro' : Rabs (B2R (lit 0.099%Q) - 0.099) <= 1.3 * u) by (apply lit_abs; [reflexivity|lra]).
  destruct bt709_consts as (fg & ft1 & fo & Eg & E1 & Eo & Fg & F1 & _ & Rg & R1 & _).
  replace (75 * u + 3e-4) with (75 * u + 1.2 * 2.5e-4) by lra. replace (135 * u + 5.5e-4) with (135 * u + 2.2 * 2.5e-4) by lra.
  apply (curve_pair prec emax P5 E5 pw PW 4.5 0.099 1.099 (/ 0.45) 0.018 2.5e-4) with (fs := lit 4.5%Q) (fo1 := lit 0.099%Q) (fa1 := lit 1.099%Q) (fg := fg) (fa2 := lit 1.099%Q)
    (fp := lit 0.45%Q) (fo2 := lit 0.099%Q) (ft0 := lit 0.018%Q) (ft1 := ft1) (dec := @dec_bt709_t _ ops) (enc := @enc_bt709_t _ ops); try assumption; try lra.
  1: exact knee_bt.
  1: weak Rs. 1: weak Ra. 1: weak Ra. 1: rewrite Rinv_inv; weak Rp. 1: weak R0.
  - intros y Fy. unfold dec_bt709_t. cbn [rle rlit radd rmul rdiv rpowf b_ops]. rewrite <- Eg, <- E1. destruct (le_cases y ft1 Fy F1) as [[-> C]|[-> C]]; [left|right]; (split; [exact C|reflexivity]).
  - intros y Fy. unfold enc_bt709_t. cbn [rle rlit rmul rsub radd rdiv rpowf b_ops]. destruct (le_cases y (lit 0.018%Q) Fy F0) as [[-> C]|[-> C]]; [left|right]; (split; [exact C|reflexivity]).
Qed.
Lemma bt709_stays : stays (fun x => @enc_bt709_t _ ops (@dec_bt709_t _ ops x)) (75 * u + 3e-4).
Proof. intros x F H. apply bt709_pair; [exact F|apply unit, H]. Qed.
Lemma bt2020_pair x : is_finite x = true -> 0 <= B2R x <= 1 ->
  stays1 prec emax (@dec_bt2020_t _ ops) (@enc_bt2020_t _ ops) (75 * u + 3e-4) x /\ moves1 prec emax (@dec_bt2020_t _ ops) (@enc_bt2020_t _ ops) (135 * u + 5.5e-4) x.
Proof.
  intros F H. destruct (CurveProofs.u24 prec P5) as [U0 U]. pose proof (tiny_le emax E5) as [T0 T].
  destruct (l_pos 4.5%Q 4.5 eq_refl ltac:(lra)) as [Fs Rs]. destruct (l_pos 1.099%Q 1.099 eq_refl ltac:(lra)) as [Fa Ra]. destruct (l_pos 0.45%Q 0.45 eq_refl ltac:(lra)) as [Fp Rp]. destruct (l_pos 0.018%Q 0.018 eq_refl ltac:(lra)) as [F0 R0].
  destruct bt709_consts as (fg & ft1 & fo & Eg & E1 & Eo & Fg & F1 & Fo & Rg & R1 & Ro).
  replace (75 * u + 3e-4) with (75 * u + 1.2 * 2.5e-4) by lra. replace (135 * u + 5.5e-4) with (135 * u + 2.2 * 2.5e-4) by lra.
  apply (curve_pair prec emax P5 E5 pw PW 4.5 0.099 1.099 (/ 0.45) 0.018 2.5e-4) with (fs := lit 4.5%Q) (fo1 := fo) (fa1 := lit 1.099%Q) (fg := fg) (fa2 := lit 1.099%Q)
    (fp := lit 0.45%Q) (fo2 := fo) (ft0 := lit 0.018%Q) (ft1 := ft1) (dec := @dec_bt2020_t _ ops) (enc := @enc_bt2020_t _ ops); try assumption; try lra.
  1: exact knee_bt.
  1: weak Rs. 1: weak Ra. 1: weak Ra. 1: rewrite Rinv_inv; weak Rp. 1: weak R0.
  - intros y Fy. unfold dec_bt2020_t. cbv zeta. cbn [rlt rlit radd rsub rmul rdiv rpowf b_ops]. rewrite <- Eg, <- E1, <- Eo. destruct (lt_cases y ft1 Fy F1) as [[-> C]|[-> C]]; [left|right]; (split; [exact C|reflexivity]).
  - intros y Fy. unfold enc_bt2020_t. cbv zeta. cbn [rlt rlit rmul rsub radd rdiv rpowf b_ops]. rewrite <- Eo. destruct (lt_cases y (lit 0.018%Q) Fy F0) as [[-> C]|[-> C]]; [left|right]; (split; [exact C|reflexivity]).
Qed.
Lemma bt2020_stays : stays (fun x => @enc_bt2020_t _ ops (@dec_bt2020_t _ ops x)) (75 * u + 3e-4).
Proof. intros x F H. apply bt2020_pair; [exact F|apply unit, H]. Qed.
Lemma power_stays (g : Q) : powf_zero prec emax pw -> 2 <= Q2R g <= 2.7 -> stays (fun x => pw (pw x (b_of_Q prec emax g)) (Bdiv mode_NE (b_of_Q prec emax 1.0) (b_of_Q prec emax g))) (95 * u).
Proof.
  intros PZ G x F H. pose proof (tiny_le emax E5) as [T0 T]. destruct (CurveProofs.u24 prec P5) as [U0 U]. destruct litd_ok as [LD _]. destruct (LD g ltac:(lra)) as [Fg Rg].
  destruct (recip (b_of_Q prec emax) _ _ litd_ok Fg Rg ltac:(lra)) as [Fp Rp]. eapply power_curve; try eassumption. weak Rg.
Qed.
Lemma id_stays : stays (fun x => x) 0.
Proof. intros x F _. split; [exact F|]. replace (B2R x - B2R x) with 0 by ring. rewrite Rabs_R0. lra. Qed.

(* every pixel with codes 0 .. N is its own image under decode and encode *)
Definition keeps (N : Z) (s : color_space fl) : Prop := forall r g b, (0 <= r <= N)%Z -> (0 <= g <= N)%Z -> (0 <= b <= N)%Z ->
  @rgb_to_uint _ ops N (cs_encode s (cs_decode s (@rgb_of_uint _ ops N (Rgb r g b)))) = Rgb r g b.
Lemma keeps_channel N enc dec f E s : cs_oetf s = enc -> cs_eotf s = dec -> (forall c, enc (dec c) = Rgb (f (rgb_r c)) (f (rgb_g c)) (f (rgb_b c))) -> stays f E ->
  (1 <= N <= 65535)%Z -> IZR N * (E + 2 * u) < / 2 -> keeps N s.
Proof.
  intros <- <- P S HN B r g b Hr Hg Hb. unfold cs_encode, cs_decode. rewrite P. unfold rgb_to_uint, rgb_of_uint. cbn [rgb_r rgb_g rgb_b].
  rewrite !(codes_stay f E N) by assumption. reflexivity.
Qed.
Lemma new_oetf r g b w e d s : @cs_new _ ops r g b w e d = Ret s -> cs_oetf s = e /\ cs_eotf s = d.
Proof. unfold cs_new. destruct (unwrap _); cbn [obind]; [|discriminate..]. intros [= <-]. split; reflexivity. Qed.

(* the space and the largest code value up to which its pixels are kept *)
Definition curves : list (outcome (color_space fl) * Z) :=
  [(Ret (@SRGB _ ops), 65535); (@SRGB_DRV _ ops, 65535); (@ITUR_BT709 _ ops, 1023); (@ITUR_BT2020 _ ops, 1023); (@DCI_P3 _ ops, 65535); (@DCI_P3_D65 _ ops, 65535);
   (Ret (@ACES _ ops), 65535); (@ACES_CG _ ops, 65535); (Ret (@ADOBE_RGB_1998 _ ops), 65535)]%Z.
Lemma fine N M E : (1 <= N <= M)%Z -> IZR M * (E + 2 * u) < / 2 -> 0 <= E -> IZR N * (E + 2 * u) < / 2.
Proof. intros H B E0. pose proof (CurveProofs.u24 prec P5). assert (IZR N <= IZR M) by (apply IZR_le; lia). eapply Rle_lt_trans; [|exact B]. apply Rmult_le_compat_r; lra. Qed.
Lemma u_24 : u <= / 16777216.
Proof. apply Rle_trans with (bpow radix2 (-24)); [apply bpow_le; lia|]. change (/ 16777216 <= / 16777216). lra. Qed.
Lemma all_curves : powf_zero prec emax pw -> Forall (fun sn => forall s N, fst sn = Ret s -> (1 <= N <= snd sn)%Z -> keeps N s) curves.
Proof.
  intro PZ. pose proof u_24 as U. pose proof (CurveProofs.u24 prec P5) as [U0 _].
  assert (SR : forall s N, cs_oetf s = @enc_srgb _ ops -> cs_eotf s = @dec_srgb _ ops -> (1 <= N <= 65535)%Z -> keeps N s).
  { intros s N E D HN. apply (keeps_channel N _ _ _ _ s E D (fun c => eq_refl) srgb_stays HN). apply (fine N 65535); [exact HN|lra|lra]. }
  assert (PR : forall g s N, 2 <= Q2R g <= 2.7 -> cs_oetf s = @pow_curve _ ops (Bdiv mode_NE (b_of_Q prec emax 1.0) (b_of_Q prec emax g)) -> cs_eotf s = @pow_curve _ ops (b_of_Q prec emax g) -> (1 <= N <= 65535)%Z -> keeps N s).
  { intros g s N G E D HN. apply (keeps_channel N _ _ _ _ s E D (fun c => eq_refl) (power_stays g PZ G) HN). apply (fine N 65535); [exact HN|lra|lra]. }
  assert (LR : forall s N, cs_oetf s = @enc_linear fl -> cs_eotf s = @dec_linear fl -> (1 <= N <= 65535)%Z -> keeps N s).
  { intros s N E D HN. apply (keeps_channel N _ _ _ _ s E D (fun c => eq_refl) id_stays HN). apply (fine N 65535); [exact HN|lra|lra]. }
  unfold curves. repeat apply Forall_cons; [..|apply Forall_nil]; cbn [fst snd]; intros s N E HN.
  - injection E as <-. apply SR; [reflexivity..|exact HN].
  - apply new_oetf in E. destruct E. apply SR; assumption.
  - apply new_oetf in E. destruct E as [E D]. apply (keeps_channel N _ _ _ _ s E D (fun c => eq_refl) bt709_stays); [lia|]. apply (fine N 1023); [exact HN|lra|lra].
  - apply new_oetf in E. destruct E as [E D]. apply (keeps_channel N _ _ _ _ s E D (fun c => eq_refl) bt2020_stays); [lia|]. apply (fine N 1023); [exact HN|lra|lra].
  - apply new_oetf in E. destruct E. apply (PR 2.6%Q); [clear; q2r; lra|assumption..].
  - apply new_oetf in E. destruct E. apply (PR 2.6%Q); [clear; q2r; lra|assumption..].
  - injection E as <-. apply LR; [reflexivity..|exact HN].
  - apply new_oetf in E. destruct E. apply LR; assumption.
  - injection E as <-. apply (PR 2.19921875%Q); [clear; q2r; lra|reflexivity..|exact HN].
Qed.

(* between the pieces of BT.709 the twelve-bit code 332 is lost: it decodes to just below 0.018 and is encoded by the other piece *)
Lemma bt_jump fo fg : is_finite fo = true -> is_finite fg = true -> Rabs (B2R fo - 0.099) <= 1.3 * u -> rel (3 * u) (B2R fg) (/ 0.45) ->
  let x := @dequantize _ ops 4095 332 in let d := dpow prec emax pw fo (lit 1.099%Q) fg x in let v := elin prec emax (lit 4.5%Q) d in
  is_finite x = true /\ 0.08107 <= B2R x /\ is_finite d = true /\ B2R d <= 0.01799 /\ @quantize _ ops 4095 v = 331%Z.
Proof.
  intros Fo Fg Ro Rg x d v. destruct (CurveProofs.u24 prec P5) as [U0 U]. destruct (eta_le prec emax E5) as [T0 T].
  assert (PP : (65535 <= 2 ^ prec)%Z). { apply Z.le_trans with (2 ^ 24)%Z; [lia|]. apply Z.pow_le_mono_r; lia. }
  destruct (code_range 4095 332 ltac:(lia) ltac:(lia)) as [F _]. fold x in F. pose proof (dequantize_err prec emax L lit 4095 332 ltac:(lia) ltac:(lia)) as DE. fold x in DE. apply Rabs_le_inv in DE.
  assert (X : 332 / 4095 - u <= B2R x <= 332 / 4095 + u) by lra. assert (X1 : 0.081074 <= B2R x <= 0.081075) by lra.
  destruct (l_pos 4.5%Q 4.5 eq_refl ltac:(lra)) as [Fs Rs]. destruct (l_pos 1.099%Q 1.099 eq_refl ltac:(lra)) as [Fa Ra].
  assert (Ra' : rel (3 * u) (B2R (lit 1.099%Q)) 1.099) by weak Ra. assert (Rs' : rel (2 * u) (B2R (lit 4.5%Q)) 4.5) by weak Rs.
  destruct (dpow_ok prec emax P5 E5 pw PW 4.5 0.099 1.099 (/ 0.45) 0.018) with (fo1 := fo) (fa1 := lit 1.099%Q) (fg := fg) (x := x) as (Fd & Rd & _); try assumption; try lra. fold d in Fd, Rd.
  assert (LO1 : 0.01796142 < Rpower ((0.081074 + 0.099) / 1.099) (/ 0.45)) by (apply (lt_frac_power _ _ 20 9); [lra|lra|cbn; lra|lia|]; lra).
  assert (HI1 : Rpower ((0.081075 + 0.099) / 1.099) (/ 0.45) < 0.01796165) by (apply (gt_frac_power _ _ 20 9); [lra|lra|cbn; lra|lia|]; lra).
  assert (M : Rpower ((0.081074 + 0.099) / 1.099) (/ 0.45) <= Rpower ((B2R x + 0.099) / 1.099) (/ 0.45) <= Rpower ((0.081075 + 0.099) / 1.099) (/ 0.45)) by (split; apply Rle_Rpower_l; lra).
  set (y := Rpower ((B2R x + 0.099) / 1.099) (/ 0.45)) in *. clearbody y.
  apply rel_bounds in Rd. assert (UY : 0 <= u * y <= / 10000000 * 0.02) by (split; [apply Rmult_le_pos|apply Rmult_le_compat]; lra). assert (D : 0.017961 <= B2R d <= 0.017962) by lra.
  destruct (elin_ok prec emax P5 E5 4.5 ltac:(lra) (lit 4.5%Q) Fs Rs' d Fd ltac:(lra)) as [Fv Ev]. fold v in Fv, Ev.
  split; [exact F|]. split; [lra|]. split; [exact Fd|]. split; [lra|].
  apply (quantize_half prec emax); try lia; [exact Fv|]. apply Rabs_le_inv in Ev. assert (u * (B2R d * 4.5) <= / 10000000 * 1) by (apply Rmult_le_compat; lra).
  assert (Rabs (B2R v * 4095 - 331) <= 0.1) by (apply Rabs_le; lra). lra.
Qed.
Definition loses (dec enc : fl -> fl) : Prop := @quantize _ ops 4095 (enc (dec (@dequantize _ ops 4095 332))) = 331%Z.
Lemma bt709_loses : loses (@dec_bt709_t _ ops) (@enc_bt709_t _ ops).
Proof.
  destruct bt709_consts as (fg & ft1 & fo & Eg & E1 & Eo & Fg & F1 & _ & Rg & R1 & _). destruct (l_pos 0.099%Q 0.099 eq_refl ltac:(lra)) as [Fo _]. assert (Ro' : Rabs (B2R (lit 0.099%Q) - 0.099) <= 1.3 * u) by (apply lit_abs; [reflexivity|lra]).
  destruct (bt_jump (lit 0.099%Q) fg Fo Fg Ro' Rg) as (Fx & X & Fd & D & Q). destruct (l_pos 0.018%Q 0.018 eq_refl ltac:(lra)) as [F0 R0]. destruct (CurveProofs.u24 prec P5) as [U0 U]. apply rel_bounds in R0, R1.
  unfold loses, dec_bt709_t. cbn [rle rlit radd rmul rdiv rpowf b_ops]. rewrite <- Eg, <- E1. set (x := @dequantize _ ops 4095 332) in *.
  destruct (le_cases x ft1 Fx F1) as [[_ C]|[-> _]]; [lra|]. change (pw _ fg) with (dpow prec emax pw (lit 0.099%Q) (lit 1.099%Q) fg x). set (d := dpow _ _ _ _ _ _ x) in *.
  unfold enc_bt709_t. cbn [rle rlit rmul rsub radd rdiv rpowf b_ops]. destruct (le_cases d (lit 0.018%Q) Fd F0) as [[-> _]|[_ C]]; [exact Q|lra].
Qed.
Lemma bt2020_loses : loses (@dec_bt2020_t _ ops) (@enc_bt2020_t _ ops).
Proof.
  destruct bt709_consts as (fg & ft1 & fo & Eg & E1 & Eo & Fg & F1 & Fo & Rg & R1 & Ro).
  destruct (bt_jump fo fg Fo Fg Ro Rg) as (Fx & X & Fd & D & Q). destruct (l_pos 0.018%Q 0.018 eq_refl ltac:(lra)) as [F0 R0]. destruct (CurveProofs.u24 prec P5) as [U0 U]. apply rel_bounds in R0, R1.
  unfold loses, dec_bt2020_t. cbv zeta. cbn [rlt rlit radd rsub rmul rdiv rpowf b_ops]. rewrite <- Eg, <- E1, <- Eo. set (x := @dequantize _ ops 4095 332) in *.
  destruct (lt_cases x ft1 Fx F1) as [[_ C]|[-> _]]; [lra|]. change (pw _ fg) with (dpow prec emax pw fo (lit 1.099%Q) fg x). set (d := dpow _ _ _ _ _ _ x) in *.
  unfold enc_bt2020_t. cbv zeta. cbn [rlt rlit rmul rsub radd rdiv rpowf b_ops]. destruct (lt_cases d (lit 0.018%Q) Fd F0) as [[-> _]|[_ C]]; [exact Q|lra].
Qed.
Definition grey_pixel (k : Z) : rgbu := Rgb k k k.
Lemma bt_pixel s : @ITUR_BT709 _ ops = Ret s \/ @ITUR_BT2020 _ ops = Ret s ->
  @rgb_to_uint _ ops 4095 (cs_encode s (cs_decode s (@rgb_of_uint _ ops 4095 (grey_pixel 332)))) = grey_pixel 331.
Proof.
  intros [E|E]; apply new_oetf in E; destruct E as [E D]; unfold cs_encode, cs_decode; rewrite E, D.
  - pose proof bt709_loses as Q. unfold loses in Q. unfold rgb_to_uint, rgb_of_uint, enc_bt709, dec_bt709, per_channel, grey_pixel. cbn [rgb_r rgb_g rgb_b]. rewrite Q. reflexivity.
  - pose proof bt2020_loses as Q. unfold loses in Q. unfold rgb_to_uint, rgb_of_uint, enc_bt2020, dec_bt2020, per_channel, grey_pixel. cbn [rgb_r rgb_g rgb_b]. rewrite Q. reflexivity.
Qed.
End Fmt.

(* ---- the two formats ---- *)
Lemma lit32_ok : lit_ok 24 128 (fun q => f64_to_f32 (b_of_Q 53 1024 q)).
Proof.
  split.
  - intros q H. destruct (litd_ok 53 1024 ltac:(lia) ltac:(lia)) as [LD _]. destruct (LD q H) as [F R]. set (x := b_of_Q 53 1024 q) in *.
    assert (N : is_nan x = false) by (destruct x; try discriminate; reflexivity). destruct (conv_ev 53 1024 24 128 x ltac:(lia) N) as [N2 V]. rewrite (ev_fin 53 1024 x F) in V.
    change (bpow radix2 (- (53))) with (/ 9007199254740992) in R. pose proof (rel_bounds _ _ _ R) as B. assert (X : 0.0009 <= B2R x <= 200) by lra.
    pose proof (tiny_le 128 ltac:(lia)) as [T0 T]. pose proof (rnd_below 24 128 ltac:(lia) ltac:(lia) (B2R x) ltac:(lra)) as S. pose proof (rnd_rel 24 128 (B2R x) ltac:(lra)) as R2.
    rewrite sat_in in V by exact S. unfold f64_to_f32. set (y := b_conv 53 1024 24 128 x) in *.
    assert (FY : is_finite y = true). { destruct y as [s|s| |s m e H0]; try reflexivity; [|discriminate]. exfalso. unfold ev in V. rewrite <- V in S. destruct s; [rewrite Rabs_Ropp in S|]; rewrite Rabs_pos_eq in S by apply bpow_ge_0; lra. }
    split; [exact FY|]. rewrite (ev_fin 24 128 y FY) in V. rewrite V.
    pose proof (rel_trans _ _ _ _ _ R2 R ltac:(pose proof (CurveProofs.u24 24 ltac:(lia)); lra) ltac:(lra) ltac:(lra)) as R3. eapply rel_weaken; [exact R3| |lra].
    change (bpow radix2 (- (24))) with (/ 16777216). lra.
  - rewrite <- SF2R_B2SF. change (B2SF (f64_to_f32 (b_of_Q 53 1024 1.0))) with (SpecFloat.S754_finite false 8388608 (-23)). unfold SF2R, F2R. cbn [Fnum Fexp cond_Zopp]. change (bpow radix2 (-23)) with (/ 8388608). lra.
Qed.
Lemma ret32 (L : libm f32) : Forall (fun sn => exists s, fst sn = Ret s) (curves 24 128 L (fun q => f64_to_f32 (b_of_Q 53 1024 q))).
Proof.
  pose proof (C86_pixels_f32 L) as P. rewrite Forall_forall in P. unfold curves. repeat apply Forall_cons; [..|apply Forall_nil]; cbn [fst]; try (match goal with |- exists s, Ret _ = Ret s => eexists; reflexivity end).
  1: destruct (P (@SRGB_DRV _ (f32_ops L), 65535%Z)) as (s & E & _); [unfold spaces; cbn [In]; tauto|]; exists s; exact E.
  1: destruct (P (@ITUR_BT709 _ (f32_ops L), 65535%Z)) as (s & E & _); [unfold spaces; cbn [In]; tauto|]; exists s; exact E.
  1: destruct (P (@ITUR_BT2020 _ (f32_ops L), 65535%Z)) as (s & E & _); [unfold spaces; cbn [In]; tauto|]; exists s; exact E.
  1: destruct (P (@DCI_P3 _ (f32_ops L), 65535%Z)) as (s & E & _); [unfold spaces; cbn [In]; tauto|]; exists s; exact E.
  1: destruct (P (@DCI_P3_D65 _ (f32_ops L), 65535%Z)) as (s & E & _); [unfold spaces; cbn [In]; tauto|]; exists s; exact E.
  1: destruct (P (@ACES_CG _ (f32_ops L), 65535%Z)) as (s & E & _); [unfold spaces; cbn [In]; tauto|]; exists s; exact E.
Qed.
Lemma ret64 (L : libm f64) : Forall (fun sn => exists s, fst sn = Ret s) (curves 53 1024 L (b_of_Q 53 1024)).
Proof.
  pose proof (C86_pixels_f64 L) as P. rewrite Forall_forall in P. unfold curves. repeat apply Forall_cons; [..|apply Forall_nil]; cbn [fst]; try (match goal with |- exists s, Ret _ = Ret s => eexists; reflexivity end).
  1: destruct (P (@SRGB_DRV _ (f64_ops L), 65535%Z)) as (s & E & _); [unfold spaces; cbn [In]; tauto|]; exists s; exact E.
  1: destruct (P (@ITUR_BT709 _ (f64_ops L), 65535%Z)) as (s & E & _); [unfold spaces; cbn [In]; tauto|]; exists s; exact E.
  1: destruct (P (@ITUR_BT2020 _ (f64_ops L), 65535%Z)) as (s & E & _); [unfold spaces; cbn [In]; tauto|]; exists s; exact E.
  1: destruct (P (@DCI_P3 _ (f64_ops L), 65535%Z)) as (s & E & _); [unfold spaces; cbn [In]; tauto|]; exists s; exact E.
  1: destruct (P (@DCI_P3_D65 _ (f64_ops L), 65535%Z)) as (s & E & _); [unfold spaces; cbn [In]; tauto|]; exists s; exact E.
  1: destruct (P (@ACES_CG _ (f64_ops L), 65535%Z)) as (s & E & _); [unfold spaces; cbn [In]; tauto|]; exists s; exact E.
Qed.

Theorem C87_curves_f32 (L : libm f32) : powf_ok 24 128 (l_powf L) -> powf_zero 24 128 (l_powf L) ->
  Forall (fun sn => exists s, fst sn = Ret s /\ forall N, (1 <= N <= snd sn)%Z -> keeps 24 128 L (fun q => f64_to_f32 (b_of_Q 53 1024 q)) N s) (curves 24 128 L (fun q => f64_to_f32 (b_of_Q 53 1024 q))).
Proof.
  intros PW PZ. pose proof (all_curves 24 128 ltac:(lia) ltac:(lia) L _ lit32_ok PW PZ) as A. pose proof (ret32 L) as B. rewrite Forall_forall in *. intros sn I. destruct (B sn I) as [s E]. exists s. split; [exact E|].
  intros N HN. exact (A sn I s N E HN).
Qed.
Theorem C87_curves_f64 (L : libm f64) : powf_ok 53 1024 (l_powf L) -> powf_zero 53 1024 (l_powf L) ->
  Forall (fun sn => exists s, fst sn = Ret s /\ forall N, (1 <= N <= snd sn)%Z -> keeps 53 1024 L (b_of_Q 53 1024) N s) (curves 53 1024 L (b_of_Q 53 1024)).
Proof.
  intros PW PZ. pose proof (all_curves 53 1024 ltac:(lia) ltac:(lia) L _ (litd_ok 53 1024 ltac:(lia) ltac:(lia)) PW PZ) as A. pose proof (ret64 L) as B. rewrite Forall_forall in *. intros sn I. destruct (B sn I) as [s E]. exists s. split; [exact E|].
  intros N HN. exact (A sn I s N E HN).
Qed.
(* at twelve bits the broadcast curves are not kept, whatever the powf *)
Theorem C87_twelve_bits_refuted : exists k k', k' <> k /\
  (forall (L : libm f32) s, powf_ok 24 128 (l_powf L) -> @ITUR_BT709 _ (f32_ops L) = Ret s \/ @ITUR_BT2020 _ (f32_ops L) = Ret s ->
     @rgb_to_uint _ (f32_ops L) 4095 (cs_encode s (cs_decode s (@rgb_of_uint _ (f32_ops L) 4095 (grey_pixel k)))) = grey_pixel k')
  /\ (forall (L : libm f64) s, powf_ok 53 1024 (l_powf L) -> @ITUR_BT709 _ (f64_ops L) = Ret s \/ @ITUR_BT2020 _ (f64_ops L) = Ret s ->
     @rgb_to_uint _ (f64_ops L) 4095 (cs_encode s (cs_decode s (@rgb_of_uint _ (f64_ops L) 4095 (grey_pixel k)))) = grey_pixel k').
Proof.
  exists 332%Z, 331%Z. split; [discriminate|]. split; intros L s PW.
  - apply (bt_pixel 24 128 ltac:(lia) ltac:(lia) L _ lit32_ok PW).
  - apply (bt_pixel 53 1024 ltac:(lia) ltac:(lia) L _ (litd_ok 53 1024 ltac:(lia) ltac:(lia)) PW).
Qed.

(* ---- a powf with the assumed accuracy exists: the correctly rounded one ---- *)
Section Exists.
Context (prec emax : Z) {Hp : Prec_gt_0 prec} {He : Prec_lt_emax prec emax} (P5 : (24 <= prec)%Z) (E5 : (128 <= emax)%Z).
Notation fl := (binary_float prec emax).
Notation fexp := (SpecFloat.fexp prec emax).
Definition nearest (r : R) : fl := binary_normalize prec emax _ _ mode_NE (ZnearestE (scaled_mantissa radix2 fexp r)) (cexp radix2 fexp r) false.
Definition rounded_pow (x y : fl) : fl := if Rlt_bool 0 (B2R x) then nearest (Rpower (B2R x) (B2R y)) else B754_zero false.
Lemma nearest_ok r : Rabs (round radix2 fexp ZnearestE r) < bpow radix2 emax -> is_finite (nearest r) = true /\ B2R (nearest r) = round radix2 fexp ZnearestE r.
Proof.
  intro H. unfold nearest. pose proof (binary_normalize_correct prec emax _ _ mode_NE (ZnearestE (scaled_mantissa radix2 fexp r)) (cexp radix2 fexp r) false) as C. cbv zeta in C. cbn [round_mode] in C.
  change (F2R (Float radix2 (ZnearestE (scaled_mantissa radix2 fexp r)) (cexp radix2 fexp r))) with (round radix2 fexp ZnearestE r) in C.
  rewrite (round_generic radix2 fexp ZnearestE (round radix2 fexp ZnearestE r)) in C by (apply generic_format_round; auto with typeclass_instances).
  rewrite Rlt_bool_true in C by exact H. destruct C as (C1 & C2 & _). split; assumption.
Qed.
Lemma rounded_pow_ok : powf_ok prec emax rounded_pow /\ powf_zero prec emax rounded_pow.
Proof.
  split.
  - intros x y Fx Fy X Y T. unfold rounded_pow. rewrite Rlt_bool_true by apply X.
    assert (B : Rpower (B2R x) (B2R y) <= 8).
    { apply Rle_trans with (Rpower 2 (B2R y)); [apply Rle_Rpower_l; lra|]. apply Rle_trans with (Rpower 2 3); [apply Rle_Rpower; lra|]. replace 3 with (INR 3) by (rewrite INR_IZR_INZ; reflexivity). rewrite Rpower_pow by lra. lra. }
    destruct (nearest_ok (Rpower (B2R x) (B2R y))) as [F V]; [apply (rnd_below prec emax P5 E5); lra|]. split; [exact F|]. rewrite V. pose proof (CurveProofs.u24 prec P5).
    eapply rel_weaken; [apply (rnd_rel prec emax); exact T|lra|apply Rlt_le, exp_pos].
  - intros x y Fx Fy X Y. unfold rounded_pow. rewrite Rlt_bool_false by lra. split; reflexivity.
Qed.
End Exists.
Definition some_libm {T} (z : T) (pw : T -> T -> T) : libm T :=
  {| l_exp := fun _ => z; l_sin := fun _ => z; l_cos := fun _ => z; l_log10 := fun _ => z; l_powf := pw; l_powi := fun _ _ => z; l_atan2 := fun _ _ => z; l_hypot := fun _ _ => z;
     l_degrees := fun _ => z; l_radians := fun _ => z; l_approx := fun _ _ _ _ => false |}.
Example C87_example : exists L : libm f32, powf_ok 24 128 (l_powf L) /\ powf_zero 24 128 (l_powf L) /\
  @rgb_to_u16 _ (f32_ops L) (cs_encode (@SRGB _ (f32_ops L)) (cs_decode (@SRGB _ (f32_ops L)) (@rgb_of_u16 _ (f32_ops L) (Rgb 1 2651 65534)%Z))) = Rgb 1%Z 2651%Z 65534%Z.
Proof.
  set (L := some_libm (B754_zero false : f32) (rounded_pow 24 128)). exists L. destruct (rounded_pow_ok 24 128 ltac:(lia) ltac:(lia)) as [PW PZ]. split; [exact PW|]. split; [exact PZ|].
  pose proof (C87_curves_f32 L PW PZ) as A. inversion A as [|sn l (s & E & K) _ EQ]. cbn [fst snd] in E, K. injection E as <-. apply (K 65535%Z); lia.
Qed.
Print Assumptions C87_curves_f32.
