(* C121: converting an image in ALEXA wide gamut to ALEXA wide gamut *)
From Coq Require Import Reals ZArith QArith Qreals Lra Lia Bool List.
From Flocq Require Import Core BinarySingleNaN.
From Verif Require Import Outcome RealOps MathModel ColorModel SpaceModel TransformModel XReal SpecLin FloatInst FloatProofs ErrProofs TransferProofs PropPixel RelErr CurveProofs PropCurve PropSelf MatProofs ConvMat ConvProofs PropConv LogProofs PropLogc.
Import ListNotations.
Open Scope R_scope.

Section Fmt.
Context (prec emax : Z) {Hp : Prec_gt_0 prec} {He : Prec_lt_emax prec emax}.
Notation fl := (binary_float prec emax).
Notation u := (bpow radix2 (- prec)).
Notation eta := (bpow radix2 (2 - emax - prec)).
Context (P5 : (24 <= prec)%Z) (E5 : (128 <= emax)%Z).
Context (L : libm fl) (lit : Q -> fl).
Notation ops := (b_ops prec emax L lit).
Notation alexa := (@ALEXA_WIDE_GAMUT _ ops).

(* ---- one row of a matrix near the identity, on values up to 57.7 in magnitude ---- *)
Lemma row_alexa a b c x y z t : is_finite a = true -> is_finite b = true -> is_finite c = true -> is_finite x = true -> is_finite y = true -> is_finite z = true ->
  Rabs t <= 57.7 -> Rabs (edot prec emax a b c x y z - t) <= 1.1e-6 * Rabs t + 6.99e-5 -> adot prec emax a b c x y z <= (1 + 1.1e-6) * Rabs t + 6.99e-5 ->
  is_finite (fdot prec emax a b c x y z) = true /\ Rabs (B2R (fdot prec emax a b c x y z) - t) <= 1.6e-6 * Rabs t + 7e-5.
Proof.
  intros Fa Fb Fc Fx Fy Fz Ht HE HA. destruct (CurveProofs.u24 prec P5) as [U0 U]. destruct (eta_le prec emax E5) as [T0 T]. pose proof (big emax ltac:(lia)) as G. pose proof (Rabs_pos t) as A0.
  assert (F : is_finite (fdot prec emax a b c x y z) = true) by (apply fdot_finite; try assumption; [lia|lra]). split; [exact F|].
  pose proof (fdot_err prec emax a b c x y z ltac:(lia) F) as H.
  assert (4 * u * adot prec emax a b c x y z <= 4 * u * ((1 + 1.1e-6) * Rabs t + 6.99e-5)) by (apply Rmult_le_compat_l; lra).
  assert (4 * u * ((1 + 1.1e-6) * Rabs t + 6.99e-5) <= 4 * / 10000000 * ((1 + 1.1e-6) * Rabs t + 6.99e-5)) by (apply Rmult_le_compat_r; lra).
  replace (B2R (fdot prec emax a b c x y z) - t) with ((B2R (fdot prec emax a b c x y z) - edot prec emax a b c x y z) + (edot prec emax a b c x y z - t)) by ring. eapply Rle_trans; [apply Rabs_triang|]. lra.
Qed.
Lemma dominant p q s x y z : Rabs (p - 1) <= 1.1e-6 -> Rabs q + Rabs s <= 1.21e-6 -> Rabs x <= 57.7 -> Rabs y <= 57.7 -> Rabs z <= 57.7 ->
  Rabs (p * x + q * y + s * z - x) <= 1.1e-6 * Rabs x + 6.99e-5 /\ Rabs (p * x) + Rabs (q * y) + Rabs (s * z) <= (1 + 1.1e-6) * Rabs x + 6.99e-5.
Proof.
  intros P Q X1 Y1 Z1. pose proof (Rabs_pos x). assert (A : Rabs (p * x - x) <= 1.1e-6 * Rabs x) by (replace (p * x - x) with ((p - 1) * x) by ring; rewrite Rabs_mult; apply Rmult_le_compat_r; lra).
  assert (B : Rabs (p * x) <= (1 + 1.1e-6) * Rabs x) by (rewrite Rabs_mult; apply Rmult_le_compat_r; [lra|]; apply Rabs_le_inv in P; apply Rabs_le; lra).
  assert (C : Rabs (q * y) + Rabs (s * z) <= 6.99e-5). { rewrite !Rabs_mult. assert (Rabs q * Rabs y <= Rabs q * 57.7) by (apply Rmult_le_compat_l; [apply Rabs_pos|lra]). assert (Rabs s * Rabs z <= Rabs s * 57.7) by (apply Rmult_le_compat_l; [apply Rabs_pos|lra]). lra. }
  split; [|lra]. replace (p * x + q * y + s * z - x) with ((p * x - x) + (q * y + s * z)) by ring. eapply Rle_trans; [apply Rabs_triang|]. pose proof (Rabs_triang (q * y) (s * z)). lra.
Qed.
Lemma rows_alexa m r g b : nearR prec emax 1.1e-6 1.21e-6 m -> is_finite r = true -> is_finite g = true -> is_finite b = true -> Rabs (B2R r) <= 57.7 -> Rabs (B2R g) <= 57.7 -> Rabs (B2R b) <= 57.7 ->
  let e t := 1.6e-6 * Rabs t + 7e-5 in
  exists r' g' b', @mat_mul_rgb _ ops m (Rgb r g b) = Rgb r' g' b' /\ (is_finite r' = true /\ Rabs (B2R r' - B2R r) <= e (B2R r)) /\ (is_finite g' = true /\ Rabs (B2R g' - B2R g) <= e (B2R g)) /\ (is_finite b' = true /\ Rabs (B2R b' - B2R b) <= e (B2R b)).
Proof.
  intros (FM & NM) Fr Fg Fb Hr Hg Hb e. destruct m as [m0 m1 m2 m3 m4 m5 m6 m7 m8]. unfold ffin, mat_list in FM. cbn [forallb mx0 mx1 mx2 mx3 mx4 mx5 mx6 mx7 mx8] in FM. rewrite !andb_true_iff in FM.
  destruct FM as (N0 & N1 & N2 & N3 & N4 & N5 & N6 & N7 & N8 & _). destruct NM as ((A0 & A1) & (B0 & B1) & (C0 & C1)).
  do 3 eexists. split; [reflexivity|]. cbn [rgb_r rgb_g rgb_b mx0 mx1 mx2 mx3 mx4 mx5 mx6 mx7 mx8].
  split; [|split].
  - destruct (dominant _ _ _ _ _ _ A0 A1 Hr Hg Hb) as [P1 P2]. apply row_alexa; assumption.
  - destruct (dominant _ _ _ _ _ _ B0 B1 Hg Hr Hb) as [P1 P2]. apply row_alexa; try assumption; unfold edot, adot; [|lra]. replace (B2R m3 * B2R r + B2R m4 * B2R g + B2R m5 * B2R b - B2R g) with (B2R m4 * B2R g + B2R m3 * B2R r + B2R m5 * B2R b - B2R g) by ring. exact P1.
  - destruct (dominant _ _ _ _ _ _ C0 C1 Hb Hr Hg) as [P1 P2]. apply row_alexa; try assumption; unfold edot, adot; [|lra]. replace (B2R m6 * B2R r + B2R m7 * B2R g + B2R m8 * B2R b - B2R b) with (B2R m8 * B2R b + B2R m6 * B2R r + B2R m7 * B2R g - B2R b) by ring. exact P1.
Qed.

(* ---- one channel: decode, move a little, encode, quantize ---- *)
Context (LO : lit_ok prec emax lit) (TEN : is_finite (lit 10.0%Q) = true /\ B2R (lit 10.0%Q) = 10).
Context (LG : log10_ok prec emax (l_log10 L)) (PT : powf_ten prec emax (l_powf L)).
Lemma decoded (x : fl) t : is_finite x = true -> 0 <= t <= 1 -> Rabs (B2R x - t) <= u -> is_finite (@dec_alexa_t _ ops x) = true /\ -0.02 <= B2R (@dec_alexa_t _ ops x) <= 57.7.
Proof.
  intros F Q E. destruct (CurveProofs.u24 prec P5) as [U0 U]. pose proof (ecf_near prec emax P5 lit LO) as EN. pose proof E as E'. apply Rabs_le_inv in E', EN.
  destruct (dec_cases prec emax L lit LO x F) as [[C ->]|[C ->]].
  - destruct (dec_lin_round prec emax P5 E5 lit LO x t F Q E C) as [G H]. split; [exact G|]. apply Rabs_le_inv in H. unfold dLin in H. lra.
  - destruct (dec_log_round prec emax P5 E5 L lit LO TEN PT x t F Q E C) as (G & H & P1 & P2). split; [exact G|]. unfold rel in H. set (p := Rpower 10 _) in *. set (v := B2R _) in *. apply Rabs_le_inv in H.
    assert (44 * u * p <= 44 * / 10000000 * p) by (apply Rmult_le_compat_r; lra). lra.
Qed.
Lemma bright (v : fl) d D : is_finite v = true -> 1 <= d <= 57.7 -> 0 <= D <= 1e-4 -> Rabs (B2R v - d) <= D * d -> is_finite (@enc_alexa_t _ ops v) = true /\ Rabs (B2R (@enc_alexa_t _ ops v) - eLog d) <= 0.14 * D + 8 * u.
Proof.
  intros F Hd HD H. destruct (CurveProofs.u24 prec P5) as [U0 U]. pose proof (cut_near prec emax P5 lit LO) as CN. apply Rabs_le_inv in CN. pose proof H as H'. apply Rabs_le_inv in H'. assert (D * d <= 1e-4 * 57.7) by (apply Rmult_le_compat; lra).
  destruct (enc_cases prec emax L lit LO v F) as [[C _]|[C ->]]; [exfalso; lra|]. destruct (arg_round prec emax P5 E5 lit LO v F ltac:(lra)) as [Fz Rz]. cbv zeta in *. set (z := Bplus mode_NE (Bmult mode_NE (lit 5.555556%Q) v) _) in *.
  assert (RZ : rel (D + 3.2 * u) (B2R z) (5.555556 * d + 0.052272)).
  { unfold rel in *. replace (B2R z - (5.555556 * d + 0.052272)) with ((B2R z - (5.555556 * B2R v + 0.052272)) + 5.555556 * (B2R v - d)) by ring. eapply Rle_trans; [apply Rabs_triang|]. rewrite (Rabs_mult 5.555556), (Rabs_pos_eq 5.555556) by lra.
    assert (3.1 * u * (5.555556 * B2R v + 0.052272) <= 3.1 * u * (1.001 * (5.555556 * d + 0.052272))). { apply Rmult_le_compat_l; [lra|]. assert (D * d <= 1e-4 * d) by (apply Rmult_le_compat_r; lra). lra. }
    assert (0 <= u * (5.555556 * d + 0.052272)) by (apply Rmult_le_pos; lra). assert (0 <= D * 0.052272) by lra. lra. }
  destruct (log_tail prec emax P5 E5 L lit LO LG z (5.555556 * d + 0.052272) (D + 3.2 * u) Fz ltac:(lra) ltac:(lra) RZ) as [G1 G2]. split; [exact G1|]. cbv zeta in G2. unfold eLog. eapply Rle_trans; [exact G2|]. lra.
Qed.
Lemma moved N k : (1 <= N <= 1023)%Z -> (0 <= k <= N)%Z -> let x := @dequantize _ ops N k in let d := @dec_alexa_t _ ops x in
  is_finite d = true /\ Rabs (B2R d) <= 57.7 /\ forall v, is_finite v = true -> Rabs (B2R v - B2R d) <= 1.6e-6 * Rabs (B2R d) + 7e-5 -> @quantize _ ops N (@enc_alexa_t _ ops v) = k.
Proof.
  intros HN Hk x d. destruct (fdeq prec emax P5 L lit N k ltac:(lia) Hk) as (F & B & Q & E). fold x in F, B, E. destruct (CurveProofs.u24 prec P5) as [U0 U]. destruct (decoded x _ F Q E) as [Fd Bd]. fold d in Fd, Bd. split; [exact Fd|]. split; [apply Rabs_le; lra|]. intros v Fv Hv.
  destruct (code_trip prec emax P5 E5 L lit LO TEN LG PT x _ F Q E) as [G1 G2]. fold d in G1, G2. assert (N1 : 1 <= IZR N <= 1023) by (split; apply IZR_le; lia).
  assert (S : is_finite (@enc_alexa_t _ ops v) = true /\ Rabs (B2R (@enc_alexa_t _ ops v) - B2R (@enc_alexa_t _ ops d)) <= 4.5e-4 + 206 * u).
  { destruct (Rle_dec (B2R d) 1) as [C|C].
    - assert (A : Rabs (B2R d) <= 1) by (apply Rabs_le; lra). assert (D0 : Rabs (B2R d - B2R d) <= 0) by (rewrite Rminus_eq_0, Rabs_R0; lra).
      destruct (enc_close prec emax P5 E5 L lit LO LG v (B2R d) 7.16e-5 Fv ltac:(lra) ltac:(lra) ltac:(lra)) as [I1 I2]. destruct (enc_close prec emax P5 E5 L lit LO LG d (B2R d) 0 Fd ltac:(lra) ltac:(lra) D0) as [_ I3]. split; [exact I1|]. apply Rabs_le_inv in I2, I3. apply Rabs_le. lra.
    - rewrite (Rabs_pos_eq (B2R d)) in Hv by lra. destruct (bright v (B2R d) 7.2e-5 Fv ltac:(lra) ltac:(lra) ltac:(lra)) as [I1 I2]. destruct (bright d (B2R d) 0 Fd ltac:(lra) ltac:(lra)) as [_ I3]; [rewrite Rminus_eq_0, Rabs_R0; lra|]. split; [exact I1|]. apply Rabs_le_inv in I2, I3. apply Rabs_le. lra. }
  destruct S as [S1 S2]. apply (code_at prec emax P5 L lit N k x _ 0.000478 ltac:(lia) Hk eq_refl S1).
  - apply Rabs_le_inv in S2, G2, E. apply Rabs_le. lra.
  - apply Rle_lt_trans with (1023 * (0.000478 + 2 * / 10000000)); [|lra]. apply Rmult_le_compat; lra.
Qed.

Theorem alexa_kept N m : (1 <= N <= 1023)%Z -> @rgb_to_rgb_matrix _ ops alexa alexa = Ret m -> nearR prec emax 1.1e-6 1.21e-6 m -> @image_kept _ ops N alexa.
Proof.
  intros HN EM NM px to IN LE. unfold rgb_to_rgb. rewrite EM. cbn [obind]. f_equal. revert to LE. induction IN as [|[r g b] px (Hr & Hg & Hb) IN IH]; intros to LE.
  - destruct to; [reflexivity|discriminate].
  - destruct to as [|t to]; [discriminate|]. cbn [map rgb_to_rgb_loop]. rewrite IH by (injection LE as LE; exact LE). cbn [length rgb_r rgb_g rgb_b] in *. f_equal. f_equal.
    destruct (moved N r HN Hr) as (Fr & Br & Vr). destruct (moved N g HN Hg) as (Fg & Bg & Vg). destruct (moved N b HN Hb) as (Fb & Bb & Vb).
    destruct (rows_alexa m _ _ _ NM Fr Fg Fb Br Bg Bb) as (r' & g' & b' & E & (F1 & E1) & (F2 & E2) & (F3 & E3)).
    transitivity (@rgb_to_uint _ ops N (let c := @mat_mul_rgb _ ops m (Rgb (@dec_alexa_t _ ops (@dequantize _ ops N r)) (@dec_alexa_t _ ops (@dequantize _ ops N g)) (@dec_alexa_t _ ops (@dequantize _ ops N b))) in Rgb (@enc_alexa_t _ ops (rgb_r c)) (@enc_alexa_t _ ops (rgb_g c)) (@enc_alexa_t _ ops (rgb_b c)))); [reflexivity|].
    rewrite E. unfold rgb_to_uint. cbn [rgb_r rgb_g rgb_b]. rewrite (Vr r' F1 E1), (Vg g' F2 E2), (Vb b' F3 E3). reflexivity.
Qed.
Definition near_alexa : bool := match @rgb_to_rgb_matrix _ ops alexa alexa with Ret m => near_id prec emax 200 (11 * 2 ^ 200 / 10 ^ 7) (121 * 2 ^ 200 / 10 ^ 8) m | _ => false end.
Lemma near_alexa_ok : near_alexa = true -> exists m, @rgb_to_rgb_matrix _ ops alexa alexa = Ret m /\ nearR prec emax 1.1e-6 1.21e-6 m.
Proof.
  clear TEN LG PT LO. unfold near_alexa. destruct (@rgb_to_rgb_matrix _ ops alexa alexa) as [m| |]; try discriminate. intro H. exists m. split; [reflexivity|]. apply near_id_ok in H. destruct H as [H1 H2]. split; [exact H1|].
  assert (W : forall a b, (0 < b)%Z -> IZR (a * 2 ^ 200 / b) / IZR (2 ^ 200) <= IZR a / IZR b).
  { intros a b Hb. assert (P : 0 < IZR (2 ^ 200)) by (apply IZR_lt; reflexivity). assert (0 < IZR b) by (apply IZR_lt; lia). pose proof (Z.mul_div_le (a * 2 ^ 200) b Hb) as D. apply IZR_le in D. rewrite !mult_IZR in D.
    apply (Rmult_le_reg_r (IZR (2 ^ 200) * IZR b)); [apply Rmult_lt_0_compat; assumption|]. unfold Rdiv. replace (IZR (a * 2 ^ 200 / b) * / IZR (2 ^ 200) * (IZR (2 ^ 200) * IZR b)) with (IZR b * IZR (a * 2 ^ 200 / b)) by (field; lra). replace (IZR a * / IZR b * (IZR (2 ^ 200) * IZR b)) with (IZR a * IZR (2 ^ 200)) by (field; lra). exact D. }
  pose proof (W 11%Z (10 ^ 7)%Z ltac:(lia)) as W1. pose proof (W 121%Z (10 ^ 8)%Z ltac:(lia)) as W2. change (10 ^ 7)%Z with 10000000%Z in *. change (10 ^ 8)%Z with 100000000%Z in *.
  set (p := IZR (11 * _ / _) / _) in *. set (q := IZR (121 * _ / _) / _) in *. destruct m as [m0 m1 m2 m3 m4 m5 m6 m7 m8]. assert (p <= 1.1e-6) by lra. assert (q <= 1.21e-6) by lra. intuition (eapply Rle_trans; eassumption).
Qed.
(* ---- eleven bits: a bright blue pulls dark red down by more than half a code ---- *)
Lemma blue_high : 278 < Rpower 10 ((1 - 0.385537) / 0.247190).
Proof. apply Rlt_le_trans with (Rpower 10 (22 / 9)); [apply (lt_frac_power _ _ 22 9); [lra|lra|cbn; lra|lia|cbn; lra]|apply Rle_Rpower; lra]. Qed.
Lemma blue_decoded : 50 <= B2R (@dec_alexa_t _ ops (@dequantize _ ops 2047 2047)).
Proof.
  destruct (fdeq prec emax P5 L lit 2047 2047 ltac:(lia) ltac:(lia)) as (F & B & Q & E). set (x := @dequantize _ ops 2047 2047) in *. destruct (CurveProofs.u24 prec P5) as [U0 U]. pose proof (ecf_near prec emax P5 lit LO) as EN. pose proof E as E'. apply Rabs_le_inv in E', EN.
  assert (T1 : IZR 2047 / IZR 2047 = 1) by lra. rewrite T1 in *. destruct (dec_cases prec emax L lit LO x F) as [[C _]|[C ->]]; [exfalso; lra|].
  destruct (dec_log_round prec emax P5 E5 L lit LO TEN PT x 1 F Q E C) as (G & H & P1 & P2). pose proof blue_high as BH. unfold rel in H. set (p := Rpower 10 _) in *. set (v := B2R _) in *. apply Rabs_le_inv in H. assert (44 * u * p <= 44 * / 10000000 * p) by (apply Rmult_le_compat_r; lra). lra.
Qed.
Lemma dark_decoded k : (0 <= k <= 306)%Z -> let d := B2R (@dec_alexa_t _ ops (@dequantize _ ops 2047 k)) in Rabs (d - dLin (IZR k / 2047)) <= 0.4 * u.
Proof.
  intros Hk d. destruct (fdeq prec emax P5 L lit 2047 k ltac:(lia) ltac:(lia)) as (F & B & Q & E). subst d. set (x := @dequantize _ ops 2047 k) in *. destruct (CurveProofs.u24 prec P5) as [U0 U]. pose proof (ecf_near prec emax P5 lit LO) as EN. pose proof E as E'. apply Rabs_le_inv in E', EN.
  assert (K3 : IZR k <= 306) by (apply IZR_le; lia). destruct (dec_cases prec emax L lit LO x F) as [[C ->]|[C _]]; [|exfalso; lra]. exact (proj2 (dec_lin_round prec emax P5 E5 lit LO x _ F Q E C)).
Qed.
Lemma pulled m : nearR prec emax 1.1e-6 1.21e-6 m -> B2R (mx2 m) <= -9.53e-7 -> exists g b, @rgb_to_uint _ ops 2047 (let c := @mat_mul_rgb _ ops m (Rgb (@dec_alexa_t _ ops (@dequantize _ ops 2047 100)) (@dec_alexa_t _ ops (@dequantize _ ops 2047 0)) (@dec_alexa_t _ ops (@dequantize _ ops 2047 2047))) in Rgb (@enc_alexa_t _ ops (rgb_r c)) (@enc_alexa_t _ ops (rgb_g c)) (@enc_alexa_t _ ops (rgb_b c))) = Rgb 99%Z g b.
Proof.
  intros (FM & NM) M2. destruct m as [m0 m1 m2 m3 m4 m5 m6 m7 m8]. unfold ffin, mat_list in FM. cbn [forallb mx0 mx1 mx2 mx3 mx4 mx5 mx6 mx7 mx8] in FM, M2. rewrite !andb_true_iff in FM. destruct FM as (N0 & N1 & N2 & _). destruct NM as ((A0 & A1) & _).
  set (r := @dec_alexa_t _ ops (@dequantize _ ops 2047 100)). set (g := @dec_alexa_t _ ops (@dequantize _ ops 2047 0)). set (b := @dec_alexa_t _ ops (@dequantize _ ops 2047 2047)).
  do 2 eexists. unfold rgb_to_uint. cbn [rgb_r rgb_g rgb_b]. f_equal.
  change (@quantize _ ops 2047 (@enc_alexa_t _ ops (fdot prec emax m0 m1 m2 r g b)) = 100 - 1)%Z.
  assert (FIN : forall k, (0 <= k <= 2047)%Z -> is_finite (@dec_alexa_t _ ops (@dequantize _ ops 2047 k)) = true /\ -0.02 <= B2R (@dec_alexa_t _ ops (@dequantize _ ops 2047 k)) <= 57.7).
  { intros k Hk. destruct (fdeq prec emax P5 L lit 2047 k ltac:(lia) Hk) as (F & B & Q & E). exact (decoded _ _ F Q E). }
  destruct (FIN 100%Z ltac:(lia)) as [Fr _]. destruct (FIN 0%Z ltac:(lia)) as [Fg _]. destruct (FIN 2047%Z ltac:(lia)) as [Fb Bb]. pose proof (dark_decoded 100 ltac:(lia)) as Dr. pose proof (dark_decoded 0 ltac:(lia)) as Dg. pose proof blue_decoded as Db. cbv zeta in Dr, Dg. fold r in Fr, Dr. fold g in Fg, Dg. fold b in Fb, Bb, Db.
  destruct (CurveProofs.u24 prec P5) as [U0 U]. destruct (eta_le prec emax E5) as [T0 T]. unfold dLin in Dr, Dg. apply Rabs_le_inv in Dr, Dg.
  assert (Br : Rabs (B2R r) <= 0.01) by (apply Rabs_le; lra). assert (Bg : Rabs (B2R g) <= 0.02) by (apply Rabs_le; lra). assert (BB : Rabs (B2R b) <= 57.7) by (apply Rabs_le; lra).
  destruct (dominant _ _ _ (B2R r) (B2R g) (B2R b) A0 A1 ltac:(lra) ltac:(lra) BB) as [P1 P2].
  assert (F : is_finite (fdot prec emax m0 m1 m2 r g b) = true) by (apply row_alexa with (t := B2R r); try assumption; lra).
  pose proof (fdot_err prec emax m0 m1 m2 r g b ltac:(lia) F) as FE.
  assert (AD : 4 * u * adot prec emax m0 m1 m2 r g b <= 4 * / 10000000 * 0.0102). { assert (AP : 0 <= adot prec emax m0 m1 m2 r g b) by (unfold adot; pose proof (Rabs_pos (B2R m0 * B2R r)); pose proof (Rabs_pos (B2R m1 * B2R g)); pose proof (Rabs_pos (B2R m2 * B2R b)); lra). apply Rmult_le_compat; try lra. unfold adot. lra. }
  assert (UP : edot prec emax m0 m1 m2 r g b - B2R r <= -4.76e-5).
  { unfold edot. assert (Q1 : Rabs ((B2R m0 - 1) * B2R r) <= 1.1e-6 * 0.01) by (rewrite Rabs_mult; apply Rmult_le_compat; try apply Rabs_pos; lra). assert (Q2 : Rabs (B2R m1 * B2R g) <= 1.21e-6 * 0.02) by (rewrite Rabs_mult; pose proof (Rabs_pos (B2R m2)); apply Rmult_le_compat; try apply Rabs_pos; lra).
    apply Rabs_le_inv in Q1, Q2. assert (Q3 : 9.53e-7 * 50 <= - B2R m2 * B2R b) by (apply Rmult_le_compat; lra). lra. }
  fold (edot prec emax m0 m1 m2 r g b) in P1. set (v := fdot prec emax m0 m1 m2 r g b) in *. apply Rabs_le_inv in P1, FE.
  assert (V : B2R r - 7.01e-5 <= B2R v <= B2R r - 4.75e-5) by lra.
  pose proof (cut_near prec emax P5 lit LO) as CN. apply Rabs_le_inv in CN. destruct (enc_cases prec emax L lit LO v F) as [[C ->]|[C _]]; [|exfalso; lra].
  assert (AV : Rabs (B2R v) <= 0.01) by (apply Rabs_le; lra). destruct (lin_round prec emax P5 E5 lit LO v F ltac:(lra)) as [F2 E2]. assert (PP : (65535 <= 2 ^ prec)%Z) by (apply Z.le_trans with (2 ^ 24)%Z; [lia|]; apply Z.pow_le_mono_r; lia).
  apply (quantize_half prec emax); [lia|lia|exact F2|]. pose proof (Rabs_pos (B2R v)). assert (E3 : (17 * Rabs (B2R v) + 0.3) * u <= 0.5 * / 10000000) by (apply Rmult_le_compat; lra). set (w := B2R (Bplus _ _ _)) in *. unfold eLin in E2. apply Rabs_le_inv in E2. change (100 - 1)%Z with 99%Z.
  assert (Rabs (w * 2047 - 99) <= 0.49) by (apply Rabs_le; lra). lra.
Qed.
Definition pulls : bool := match @rgb_to_rgb_matrix _ ops alexa alexa with Ret m => (good prec emax 200 (mx2 m) && (zent prec emax 200 (mx2 m) * 10 ^ 9 <=? -953 * 2 ^ 200)%Z)%bool | _ => false end.
Lemma pulled_image : near_alexa = true -> pulls = true -> exists g b, @rgb_to_rgb _ ops _ (@rgb_to_uint _ ops 2047) alexa alexa [@rgb_of_uint _ ops 2047 (Rgb 100 0 2047)%Z] [Rgb 0 0 0]%Z = Ret (1%nat, [Rgb 99%Z g b]).
Proof.
  intros NA PL. destruct (near_alexa_ok NA) as (m & E & NM). unfold pulls in PL. rewrite E in PL. rewrite andb_true_iff, Z.leb_le in PL. destruct PL as [G1 G2]. destruct (zent_ok prec emax 200 _ ltac:(lia) G1) as [_ G3].
  apply IZR_le in G2. rewrite !mult_IZR, G3 in G2. assert (P : 0 < IZR (2 ^ 200)) by (apply IZR_lt; reflexivity). change (10 ^ 9)%Z with 1000000000%Z in G2.
  destruct (pulled m NM) as (g & b & H). { apply (Rmult_le_reg_r (IZR (2 ^ 200))); [exact P|]. lra. }
  exists g, b. unfold rgb_to_rgb. rewrite E. cbn [obind rgb_to_rgb_loop]. rewrite <- H. reflexivity.
Qed.
End Fmt.

Notation lit32 := (fun q => f64_to_f32 (b_of_Q 53 1024 q)).
Notation lit64 := (b_of_Q 53 1024).
Lemma near32 (L : libm f32) : near_alexa 24 128 L lit32 = true. Proof. vm_compute. reflexivity. Qed.
Lemma near64 (L : libm f64) : near_alexa 53 1024 L lit64 = true. Proof. vm_compute. reflexivity. Qed.
Lemma ten32 : is_finite (lit32 10.0%Q : f32) = true /\ B2R (lit32 10.0%Q : f32) = 10.
Proof. apply (ten 24 128). vm_compute. reflexivity. Qed.
Lemma ten64 : is_finite (lit64 10.0%Q : f64) = true /\ B2R (lit64 10.0%Q : f64) = 10.
Proof. apply (ten 53 1024). vm_compute. reflexivity. Qed.

(* every image of up to ten bits is returned as it is *)
Theorem C121_kept_f32 (L : libm f32) N : log10_ok 24 128 (l_log10 L) -> powf_ten 24 128 (l_powf L) -> (1 <= N <= 1023)%Z -> @image_kept _ (f32_ops L) N (@ALEXA_WIDE_GAMUT _ (f32_ops L)).
Proof. intros LG PT HN. destruct (near_alexa_ok 24 128 L lit32 (near32 L)) as (m & E & NM). exact (alexa_kept 24 128 ltac:(lia) ltac:(lia) L lit32 lit32_ok ten32 LG PT N m HN E NM). Qed.
Theorem C121_kept_f64 (L : libm f64) N : log10_ok 53 1024 (l_log10 L) -> powf_ten 53 1024 (l_powf L) -> (1 <= N <= 1023)%Z -> @image_kept _ (f64_ops L) N (@ALEXA_WIDE_GAMUT _ (f64_ops L)).
Proof. intros LG PT HN. destruct (near_alexa_ok 53 1024 L lit64 (near64 L)) as (m & E & NM). exact (alexa_kept 53 1024 ltac:(lia) ltac:(lia) L lit64 (litd_ok 53 1024 ltac:(lia) ltac:(lia)) ten64 LG PT N m HN E NM). Qed.

(* not so at eleven bits: red 100 under full blue becomes 99 *)
Lemma pulls32 (L : libm f32) : pulls 24 128 L lit32 = true. Proof. vm_compute. reflexivity. Qed.
Lemma pulls64 (L : libm f64) : pulls 53 1024 L lit64 = true. Proof. vm_compute. reflexivity. Qed.
Lemma not_kept {T} {O : RealOps T} (s : color_space T) g b : rgb_to_rgb (rgb_to_uint 2047) s s [rgb_of_uint 2047 (Rgb 100 0 2047)%Z] [Rgb 0 0 0]%Z = Ret (1%nat, [Rgb 99%Z g b]) -> ~ image_kept 2047 s.
Proof. intros E H. specialize (H [Rgb 100 0 2047]%Z [Rgb 0 0 0]%Z). cbn [map length] in H. rewrite E in H. assert (A : Ret (1%nat, [Rgb 99%Z g b]) = Ret (1%nat, [Rgb 100 0 2047]%Z)); [apply H; [repeat constructor; cbn; lia|reflexivity]|]. discriminate A. Qed.
Theorem C121_eleven_bits_refuted : (forall L : libm f32, powf_ten 24 128 (l_powf L) -> ~ @image_kept _ (f32_ops L) 2047 (@ALEXA_WIDE_GAMUT _ (f32_ops L))) /\
  (forall L : libm f64, powf_ten 53 1024 (l_powf L) -> ~ @image_kept _ (f64_ops L) 2047 (@ALEXA_WIDE_GAMUT _ (f64_ops L))).
Proof.
  split; intros L PT.
  - destruct (pulled_image 24 128 ltac:(lia) ltac:(lia) L lit32 lit32_ok ten32 PT (near32 L) (pulls32 L)) as (g & b & E). exact (@not_kept _ (f32_ops L) _ g b E).
  - destruct (pulled_image 53 1024 ltac:(lia) ltac:(lia) L lit64 (litd_ok 53 1024 ltac:(lia) ltac:(lia)) ten64 PT (near64 L) (pulls64 L)) as (g & b & E). exact (@not_kept _ (f64_ops L) _ g b E).
Qed.

(* a library as assumed exists; on it ten-bit pixels next to the extremes and next to the join come back *)
Example C121_example : exists L : libm f32, log10_ok 24 128 (l_log10 L) /\ powf_ten 24 128 (l_powf L) /\
  @rgb_to_rgb _ (f32_ops L) _ (@rgb_to_uint _ (f32_ops L) 1023) (@ALEXA_WIDE_GAMUT _ (f32_ops L)) (@ALEXA_WIDE_GAMUT _ (f32_ops L)) (map (@rgb_of_uint _ (f32_ops L) 1023) [Rgb 0 1023 1; Rgb 153 154 1022]%Z) [Rgb 7 7 7; Rgb 8 8 8]%Z = Ret (2%nat, [Rgb 0 1023 1; Rgb 153 154 1022]%Z).
Proof.
  set (L := log_libm 24 128). pose proof (round_log_ok 24 128 ltac:(lia) ltac:(lia) : log10_ok 24 128 (l_log10 L)) as LG. pose proof (full_ten 24 128 ltac:(lia) ltac:(lia) : powf_ten 24 128 (l_powf L)) as PT.
  exists L. split; [exact LG|]. split; [exact PT|]. apply (C121_kept_f32 L 1023 LG PT ltac:(lia) [Rgb 0 1023 1; Rgb 153 154 1022]%Z); [repeat constructor; cbn; lia|reflexivity].
Qed.
