(* C01-C09: colours, channels, quantisation *)
From Coq Require Import Reals ZArith QArith Qreals Lra Lia List Bool Permutation.
From Flocq Require Import Core BinarySingleNaN.
From Verif Require Import Outcome RealOps MathModel ColorModel XReal SpecLin FloatInst FloatProofs.
Import ListNotations.
Open Scope R_scope.

(* Theorems about floating point are stated for every binary format; f32 is (24, 128), f64 is
   (53, 1024).  [L] supplies the platform functions, [lit] generic-code literals: no conversion
   here uses them. *)

(* ---- C01 ---- *)
(* what one channel x turned into code k of 0..N must satisfy *)
Definition good_code {prec emax : Z} {Hp : Prec_gt_0 prec} {He : Prec_lt_emax prec emax}
  (N : Z) (x : binary_float prec emax) (k : Z) : Prop :=
  (0 <= k <= N)%Z
  /\ (x = B754_nan -> k = 0%Z)
  /\ (Bleb x (B754_zero false) = true -> k = 0%Z)
  /\ (Bleb Bone x = true -> k = N)
  /\ (is_finite x = true -> 0 <= B2R x <= 1 ->
      Rabs (IZR k - B2R x * IZR N) <= 1 / 2 + IZR N * bpow radix2 (- prec)).

Section Fmt.
Context (prec emax : Z) {Hp : Prec_gt_0 prec} {He : Prec_lt_emax prec emax}.
Context (L : libm (binary_float prec emax)) (lit : Q -> binary_float prec emax).
Notation fl := (binary_float prec emax).
Notation ops := (b_ops prec emax L lit).

Lemma pow16 : (16 <= prec)%Z -> (65536 <= 2 ^ prec)%Z.
Proof. intro H. change 65536%Z with (2 ^ 16)%Z. apply Z.pow_le_mono_r; lia. Qed.

Lemma quantize_good N x : (0 < N <= 2 ^ prec)%Z -> good_code N x (@quantize _ ops N x).
Proof.
  intro HN. repeat split.
  - apply quantize_range, HN.
  - apply quantize_range, HN.
  - intros ->. apply quantize_nan.
  - intro H. destruct (leb_true _ _ _ _ H) as (Nx & _ & Lx). apply quantize_low; try assumption.
  - intro H. destruct (leb_true _ _ _ _ H) as (_ & Nx & Lx). apply quantize_high; try assumption.
    rewrite ev_fin, Bone_correct in Lx by apply is_finite_Bone. exact Lx.
  - intros. apply quantize_near; assumption.
Qed.

Theorem C01_quantise_total_saturating_nearest : forall (c : rgbf fl), (16 <= prec)%Z ->
  (good_code 255 (rgb_r c) (rgb_r (@rgb_to_u8 _ ops c))
   /\ good_code 255 (rgb_g c) (rgb_g (@rgb_to_u8 _ ops c))
   /\ good_code 255 (rgb_b c) (rgb_b (@rgb_to_u8 _ ops c)))
  /\ (good_code 65535 (rgb_r c) (rgb_r (@rgb_to_u16 _ ops c))
   /\ good_code 65535 (rgb_g c) (rgb_g (@rgb_to_u16 _ ops c))
   /\ good_code 65535 (rgb_b c) (rgb_b (@rgb_to_u16 _ ops c))).
Proof.
  intros c H. pose proof (pow16 H). repeat apply conj; apply quantize_good; lia.
Qed.

(* ---- C02 ---- *)
Theorem C02_quantise_monotone : forall (c d : rgbf fl), (16 <= prec)%Z ->
  (Bleb (rgb_r c) (rgb_r d) = true ->
     (rgb_r (@rgb_to_u8 _ ops c) <= rgb_r (@rgb_to_u8 _ ops d))%Z /\
     (rgb_r (@rgb_to_u16 _ ops c) <= rgb_r (@rgb_to_u16 _ ops d))%Z)
  /\ (Bleb (rgb_g c) (rgb_g d) = true ->
     (rgb_g (@rgb_to_u8 _ ops c) <= rgb_g (@rgb_to_u8 _ ops d))%Z /\
     (rgb_g (@rgb_to_u16 _ ops c) <= rgb_g (@rgb_to_u16 _ ops d))%Z)
  /\ (Bleb (rgb_b c) (rgb_b d) = true ->
     (rgb_b (@rgb_to_u8 _ ops c) <= rgb_b (@rgb_to_u8 _ ops d))%Z /\
     (rgb_b (@rgb_to_u16 _ ops c) <= rgb_b (@rgb_to_u16 _ ops d))%Z).
Proof.
  intros c d H. pose proof (pow16 H).
  repeat apply conj; intro Le; split; (apply quantize_mono; [lia|exact Le]).
Qed.

(* ---- C03 ---- *)
Definition pixel_in (N : Z) (p : rgbu) : Prop :=
  (0 <= rgb_r p <= N)%Z /\ (0 <= rgb_g p <= N)%Z /\ (0 <= rgb_b p <= N)%Z.

Lemma small_err N : (19 <= prec)%Z -> (0 < N <= 65535)%Z -> IZR N * bpow radix2 (- prec) <= 1 / 8.
Proof.
  intros H HN. assert (IZR N <= 65535) by (apply IZR_le; lia). assert (0 < IZR N) by (apply IZR_lt; lia).
  assert (bpow radix2 (- prec) <= bpow radix2 (- 19)) by (apply bpow_le; lia).
  replace (bpow radix2 (-19)) with (/ 524288) in H2 by (cbn; reflexivity).
  pose proof (bpow_gt_0 radix2 (- prec)). nra.
Qed.

Theorem C03_integer_roundtrip : forall (p : rgbu), (19 <= prec)%Z ->
  (pixel_in 255 p -> @rgb_to_u8 _ ops (@rgb_of_u8 _ ops p) = p)
  /\ (pixel_in 65535 p -> @rgb_to_u16 _ ops (@rgb_of_u16 _ ops p) = p).
Proof.
  intros [r g b] H. pose proof (pow16 ltac:(lia)) as P.
  unfold pixel_in, rgb_to_u8, rgb_of_u8, rgb_to_u16, rgb_of_u16, rgb_to_uint, rgb_of_uint.
  cbn [rgb_r rgb_g rgb_b]. split; intros (Hr & Hg & Hb); f_equal; apply roundtrip;
    try assumption; try lia; apply small_err; lia.
Qed.
End Fmt.
Print Assumptions C01_quantise_total_saturating_nearest.
Print Assumptions C02_quantise_monotone.
Print Assumptions C03_integer_roundtrip.

(* the rounding of f64 to f32 of a value in [0,1] *)
Lemma narrow_01 (x : f64) : is_finite x = true -> 0 <= B2R x <= 1 ->
  is_finite (f64_to_f32 x) = true /\ Rabs (B2R (f64_to_f32 x) - B2R x) <= bpow radix2 (-24).
Proof.
  intros F H. destruct x as [s|s| |s m e B]; try discriminate.
  - cbn. split; [reflexivity|]. rewrite Rminus_0_r, Rabs_R0. lra.
  - unfold f64_to_f32, b_conv. cbn [B2R] in *.
    set (v := F2R _) in *.
    pose proof (binary_normalize_correct 24 128 _ _ mode_NE (cond_Zopp s (Zpos m)) e s) as C.
    cbv zeta in C. cbn [round_mode] in C. fold v in C.
    assert (R01 : 0 <= round radix2 (SpecFloat.fexp 24 128) ZnearestE v <= 1).
    { split.
      - apply Rle_trans with (round radix2 (SpecFloat.fexp 24 128) ZnearestE 0).
        + rewrite round_0; auto with typeclass_instances. lra.
        + apply (rnd_le 24 128). lra.
      - apply Rle_trans with (round radix2 (SpecFloat.fexp 24 128) ZnearestE (IZR 1)).
        + apply (rnd_le 24 128). lra.
        + rewrite (rnd_int 24 128 1) by (cbn; lia). lra. }
    rewrite Rlt_bool_true in C.
    + destruct C as (C1 & C2 & _). split; [exact C2|]. rewrite C1.
      apply Rle_trans with (1 * bpow radix2 (- (24))); [|cbn; lra].
      apply (rnd_err 24 128); [lra|]. rewrite Rabs_right; lra.
    + rewrite Rabs_right by lra. apply Rle_lt_trans with 1; [lra|]. change 1 with (bpow radix2 0). apply bpow_lt. lia.
Qed.

Theorem C03_integer_roundtrip_mixed : forall (L : libm f64) (L' : libm f32) (p : rgbu),
  let narrow (c : rgbf f64) := rgb_cast f64_to_f32 c in
  (pixel_in 255 p -> @rgb_to_u8 _ (f32_ops L') (narrow (@rgb_of_u8 _ (f64_ops L) p)) = p)
  /\ (pixel_in 65535 p -> @rgb_to_u16 _ (f32_ops L') (narrow (@rgb_of_u16 _ (f64_ops L) p)) = p).
Proof.
  intros L L' [r g b] narrow. unfold narrow, rgb_cast, pixel_in, rgb_to_u8, rgb_of_u8, rgb_to_u16, rgb_of_u16, rgb_to_uint, rgb_of_uint.
  cbn [rgb_r rgb_g rgb_b].
  assert (X : forall N k, (0 < N <= 65535)%Z -> (0 <= k <= N)%Z ->
    @quantize _ (f32_ops L') N (f64_to_f32 (@dequantize _ (f64_ops L) N k)) = k).
  { intros N k HN Hk. unfold f32_ops, f64_ops.
    destruct (dequantize_spec 53 1024 L (b_of_Q 53 1024) N k) as (F & V & B); [lia|lia|].
    pose proof (dequantize_err 53 1024 L (b_of_Q 53 1024) N k ltac:(lia) Hk) as E.
    set (d := dequantize N k) in *.
    destruct (narrow_01 d F) as [F' E']; [rewrite V; exact B|].
    apply (quantize_close 24 128); try assumption; try lia.
    - assert (N1 : 1 <= IZR N) by (apply IZR_le; lia). assert (N2 : IZR N <= 65535) by (apply IZR_le; lia).
      replace (B2R (f64_to_f32 d) * IZR N - IZR k) with
        ((B2R (f64_to_f32 d) - B2R d) * IZR N + (B2R d * IZR N - IZR k)) by ring.
      eapply Rle_trans; [apply Rabs_triang|]. rewrite Rabs_mult, (Rabs_right (IZR N)) by lra.
      replace (bpow radix2 (-24)) with (/ 16777216) in E' by (cbn; reflexivity).
      assert (E2 : bpow radix2 (- (53)) <= / 16777216).
      { replace (/ 16777216) with (bpow radix2 (-24)) by (cbn; reflexivity). apply bpow_le. lia. }
      pose proof (Rabs_pos (B2R (f64_to_f32 d) - B2R d)). pose proof (bpow_gt_0 radix2 (- (53))). nra.
    - apply (small_err 24); lia. }
  split; intros (Hr & Hg & Hb); f_equal; apply X; lia.
Qed.
Print Assumptions C03_integer_roundtrip_mixed.

(* both widths *)
Corollary C03_f32 : forall (L : libm f32) p, pixel_in 65535 p ->
  @rgb_to_u16 _ (f32_ops L) (@rgb_of_u16 _ (f32_ops L) p) = p.
Proof. intros L p. apply (C03_integer_roundtrip 24 128 L). lia. Qed.
Corollary C03_f64 : forall (L : libm f64) p, pixel_in 65535 p ->
  @rgb_to_u16 _ (f64_ops L) (@rgb_of_u16 _ (f64_ops L) p) = p.
Proof. intros L p. apply (C03_integer_roundtrip 53 1024 L). lia. Qed.

Example C03_example : pixel_in 65535 (Rgb 0 257 65535)%Z.
Proof. repeat split; cbn; lia. Qed.

(* ---- C04 ---- *)
Section Clamp.
Context (prec emax : Z) {Hp : Prec_gt_0 prec} {He : Prec_lt_emax prec emax}.
Context (L : libm (binary_float prec emax)) (lit : Q -> binary_float prec emax).
Notation fl := (binary_float prec emax).
Notation ops := (b_ops prec emax L lit).

Lemma clamp_cases (x a b : fl) : is_nan x = false -> Bleb a b = true ->
  (@clamp _ ops x a b = a /\ ev prec emax x < ev prec emax a)
  \/ (@clamp _ ops x a b = b /\ ev prec emax b < ev prec emax x)
  \/ (@clamp _ ops x a b = x /\ ev prec emax a <= ev prec emax x <= ev prec emax b).
Proof.
  intros Nx H. destruct (leb_true _ _ _ _ H) as (Na & Nb & Le).
  unfold clamp. cbn [rlt b_ops]. rewrite !ev_ltb by assumption.
  destruct (Rlt_bool_spec (ev prec emax x) (ev prec emax a)); [left; tauto|right].
  destruct (Rlt_bool_spec (ev prec emax b) (ev prec emax x)); [left; tauto|right].
  split; [reflexivity|lra].
Qed.

Lemma clamp_nan (a b : fl) : @clamp _ ops B754_nan a b = B754_nan.
Proof. unfold clamp. cbn [rlt b_ops]. rewrite ltb_nan_l, ltb_nan_r. reflexivity. Qed.

Theorem C04_clamp : forall a b x : fl, Bleb a b = true ->
  (is_nan x = false ->
     Bleb a (@clamp _ ops x a b) = true /\ Bleb (@clamp _ ops x a b) b = true
     /\ (Bleb a x = true -> Bleb x b = true -> @clamp _ ops x a b = x)
     /\ (Bltb x a = true -> @clamp _ ops x a b = a)
     /\ (Bltb b x = true -> @clamp _ ops x a b = b)
     /\ (forall y, Bleb x y = true -> Bleb (@clamp _ ops x a b) (@clamp _ ops y a b) = true))
  /\ @clamp _ ops (@clamp _ ops x a b) a b = @clamp _ ops x a b
  /\ (x = B754_nan -> @clamp _ ops x a b = B754_nan).
Proof.
  intros a b x H. destruct (leb_true _ _ _ _ H) as (Na & Nb & Le).
  split; [|split].
  - intro Nx. repeat apply conj.
    + destruct (clamp_cases x a b Nx H) as [[-> V]|[[-> V]|[-> V]]]; apply leb_intro; try assumption; lra.
    + destruct (clamp_cases x a b Nx H) as [[-> V]|[[-> V]|[-> V]]]; apply leb_intro; try assumption; lra.
    + intros L1 L2. destruct (leb_true _ _ _ _ L1) as (_ & _ & V1). destruct (leb_true _ _ _ _ L2) as (_ & _ & V2).
      destruct (clamp_cases x a b Nx H) as [[E V]|[[E V]|[E V]]]; try lra. exact E.
    + intro L1. destruct (ltb_true _ _ _ _ L1) as (_ & _ & V1).
      destruct (clamp_cases x a b Nx H) as [[E V]|[[E V]|[E V]]]; try lra. exact E.
    + intro L1. destruct (ltb_true _ _ _ _ L1) as (_ & _ & V1).
      destruct (clamp_cases x a b Nx H) as [[E V]|[[E V]|[E V]]]; try lra. exact E.
    + intros y Hxy. destruct (leb_true _ _ _ _ Hxy) as (_ & Ny & Vxy).
      destruct (clamp_cases x a b Nx H) as [[-> V]|[[-> V]|[-> V]]];
      destruct (clamp_cases y a b Ny H) as [[-> W]|[[-> W]|[-> W]]]; apply leb_intro; try assumption; lra.
  - destruct (is_nan x) eqn:Nx.
    + rewrite (is_nan_eq _ _ x Nx), !clamp_nan. reflexivity.
    + destruct (clamp_cases x a b Nx H) as [[-> V]|[[-> V]|[E V]]].
      * destruct (clamp_cases a a b Na H) as [[-> W]|[[-> W]|[-> W]]]; try lra; reflexivity.
      * destruct (clamp_cases b a b Nb H) as [[-> W]|[[-> W]|[-> W]]]; try lra; reflexivity.
      * rewrite !E. reflexivity.
  - intros ->. apply clamp_nan.
Qed.

Theorem C04_clamprgb : forall (c : rgbf fl) (a b : fl), Bleb a b = true ->
  (is_nan (rgb_r c) = false -> is_nan (rgb_g c) = false -> is_nan (rgb_b c) = false ->
   forall x, In x [rgb_r (@clamprgb _ ops c a b); rgb_g (@clamprgb _ ops c a b); rgb_b (@clamprgb _ ops c a b)] ->
   Bleb a x = true /\ Bleb x b = true)
  /\ ((forall x, In x [rgb_r c; rgb_g c; rgb_b c] -> Bleb a x = true /\ Bleb x b = true) ->
      @clamprgb _ ops c a b = c)
  /\ @clamprgb _ ops (@clamprgb _ ops c a b) a b = @clamprgb _ ops c a b.
Proof.
  intros [r g bl] a b H. cbn [clamprgb rgb_r rgb_g rgb_b].
  destruct (C04_clamp a b r H) as (Hr & Ir & _). destruct (C04_clamp a b g H) as (Hg & Ig & _).
  destruct (C04_clamp a b bl H) as (Hb & Ib & _).
  split; [|split].
  - intros Nr Ng Nb x Hx. destruct (Hr Nr) as (? & ? & _), (Hg Ng) as (? & ? & _), (Hb Nb) as (? & ? & _).
    cbn [In] in Hx. destruct Hx as [<-|[<-|[<-|[]]]]; tauto.
  - intro Hin. unfold clamprgb. cbn [rgb_r rgb_g rgb_b].
    assert (G : forall x, In x [r; g; bl] -> @clamp _ ops x a b = x).
    { intros x Hx. destruct (Hin x Hx) as [L1 L2]. destruct (leb_true _ _ _ _ L1) as (_ & Nx & _).
      destruct (C04_clamp a b x H) as (Hc & _). destruct (Hc Nx) as (_ & _ & E & _). apply E; assumption. }
    rewrite !G by (cbn; tauto). reflexivity.
  - unfold clamprgb. cbn [rgb_r rgb_g rgb_b]. rewrite Ir, Ig, Ib. reflexivity.
Qed.

Example C04_example : Bleb (B754_zero false : fl) Bone = true.
Proof.
  apply leb_intro; try reflexivity; [apply is_nan_Bone|].
  rewrite !ev_fin, Bone_correct by (reflexivity || apply is_finite_Bone). cbn. lra.
Qed.

(* ---- C05 ---- *)
Definition finite3 (c : rgbf fl) : Prop :=
  is_finite (rgb_r c) = true /\ is_finite (rgb_g c) = true /\ is_finite (rgb_b c) = true.

(* [m] is the largest of three floats *)
Definition largest (m : fl) (c : rgbf fl) : Prop :=
  (m = rgb_r c \/ m = rgb_g c \/ m = rgb_b c)
  /\ B2R (rgb_r c) <= B2R m /\ B2R (rgb_g c) <= B2R m /\ B2R (rgb_b c) <= B2R m.

Lemma b_max_fin (x y : fl) : is_finite x = true -> is_finite y = true ->
  is_finite (b_max prec emax x y) = true /\ (b_max prec emax x y = x \/ b_max prec emax x y = y)
  /\ B2R x <= B2R (b_max prec emax x y) /\ B2R y <= B2R (b_max prec emax x y).
Proof.
  intros Fx Fy. assert (Nx : is_nan x = false) by (destruct x; try discriminate; reflexivity).
  assert (Ny : is_nan y = false) by (destruct y; try discriminate; reflexivity).
  unfold b_max. rewrite Nx, Ny, bltb_fin by assumption.
  destruct (Rlt_bool_spec (B2R x) (B2R y)); repeat split; try assumption; try tauto; lra.
Qed.

Lemma hmax_largest (c : rgbf fl) : finite3 c ->
  largest (@hmax _ ops c) c /\ is_finite (@hmax _ ops c) = true.
Proof.
  intros (Fr & Fg & Fb). unfold hmax, largest. cbn [rmax b_ops].
  destruct (b_max_fin _ _ Fg Fb) as (F1 & E1 & L1 & L2).
  destruct (b_max_fin _ _ Fr F1) as (F2 & E2 & L3 & L4).
  set (m1 := b_max prec emax (rgb_g c) (rgb_b c)) in *.
  set (m2 := b_max prec emax (rgb_r c) m1) in *.
  repeat split; try assumption; try lra.
  destruct E2 as [->| ->]; [tauto|]. destruct E1 as [->| ->]; tauto.
Qed.

Lemma div_le1 (x m : fl) : is_finite x = true -> is_finite m = true -> 0 < B2R m -> B2R x <= B2R m ->
  is_nan (Bdiv mode_NE x m) = false /\ ev prec emax (Bdiv mode_NE x m) <= 1.
Proof.
  intros Fx Fm Pm Le. pose proof (Bdiv_correct prec emax _ _ mode_NE x m ltac:(lra)) as D.
  cbn [round_mode] in D.
  assert (Q : B2R x / B2R m <= 1).
  { apply (Rmult_le_reg_r (B2R m)); [lra|]. unfold Rdiv. rewrite Rmult_assoc, Rinv_l by lra. lra. }
  assert (P1 : (1 <= 2 ^ prec)%Z) by (pose proof (prec_pos prec); assert (0 < 2 ^ prec)%Z by (apply Z.pow_pos_nonneg; lia); lia).
  assert (RQ : round radix2 (SpecFloat.fexp prec emax) ZnearestE (B2R x / B2R m) <= 1).
  { apply Rle_trans with (round radix2 (SpecFloat.fexp prec emax) ZnearestE (IZR 1)).
    - apply (rnd_le prec emax). lra.
    - rewrite (rnd_int prec emax 1 P1). apply Rle_refl. }
  pose proof (bpow_emax_ge2 prec emax) as B2.
  destruct (Rlt_bool_spec (Rabs (round radix2 (SpecFloat.fexp prec emax) ZnearestE (B2R x / B2R m))) (bpow radix2 emax)) as [Lt|Ge].
  - destruct D as (D1 & D2 & _). rewrite Fx in D2. split.
    + destruct (Bdiv mode_NE x m); try discriminate; reflexivity.
    + rewrite ev_fin, D1 by assumption. exact RQ.
  - (* overflow can only be towards minus infinity *)
    assert (Sx : Bsign x = true).
    { destruct x as [s| | |s mx ex Bx]; try discriminate.
      - cbn [B2R] in Ge. unfold Rdiv in Ge. rewrite Rmult_0_l, round_0, Rabs_R0 in Ge; auto with typeclass_instances. lra.
      - destruct s; [reflexivity|]. exfalso.
        assert (0 <= B2R (B754_finite false mx ex Bx)) by (cbn; apply F2R_ge_0; cbn; lia).
        rewrite Rabs_right in Ge; [lra|]. apply Rle_ge.
        apply Rle_trans with (round radix2 (SpecFloat.fexp prec emax) ZnearestE 0).
        + rewrite round_0; auto with typeclass_instances. lra.
        + apply (rnd_le prec emax). apply Rmult_le_pos; [assumption|apply Rlt_le, Rinv_0_lt_compat; assumption]. }
    assert (Sm : Bsign m = false).
    { destruct m as [s| | |s mx ex Bx]; try discriminate; cbn [B2R] in Pm; [lra|].
      destruct s; [|reflexivity]. exfalso. assert (F2R (Float radix2 (cond_Zopp true (Zpos mx)) ex) < 0) by (apply F2R_lt_0; cbn; lia). lra. }
    rewrite Sx, Sm in D. cbn in D.
    destruct (Bdiv mode_NE x m) as [|s| |]; try discriminate D.
    cbn in D. injection D as ->. split; [reflexivity|]. cbn [ev]. lra.
Qed.

(* Missing for the full statement: colours without a positive channel, see below. *)
Theorem C05_normalize_partial : forall (c : rgbf fl), finite3 c ->
  0 < B2R (@hmax _ ops c) ->
  @hmax _ ops (@normalize _ ops c) = Bone
  /\ (forall x, In x [rgb_r (@normalize _ ops c); rgb_g (@normalize _ ops c); rgb_b (@normalize _ ops c)] ->
      Bleb x Bone = true)
  /\ (rgb_r c = @hmax _ ops c -> rgb_r (@normalize _ ops c) = Bone)
  /\ (rgb_g c = @hmax _ ops c -> rgb_g (@normalize _ ops c) = Bone)
  /\ (rgb_b c = @hmax _ ops c -> rgb_b (@normalize _ ops c) = Bone).
Proof.
  intros c F3 Pm. destruct (hmax_largest c F3) as [(E & Lr & Lg & Lb) Fm]. destruct F3 as (Fr & Fg & Fb).
  set (m := @hmax _ ops c) in *.
  assert (S : Bdiv mode_NE m m = Bone) by (apply Bdiv_self; [exact Fm|lra]).
  destruct (div_le1 _ _ Fr Fm Pm Lr) as [Nr Er]. destruct (div_le1 _ _ Fg Fm Pm Lg) as [Ng Eg].
  destruct (div_le1 _ _ Fb Fm Pm Lb) as [Nb Eb].
  assert (N1 : is_nan (Bone : fl) = false) by apply is_nan_Bone.
  assert (V1 : ev prec emax Bone = 1) by (rewrite ev_fin by apply is_finite_Bone; apply Bone_correct).
  assert (G : rgb_r (@normalize _ ops c) = Bdiv mode_NE (rgb_r c) m /\
              rgb_g (@normalize _ ops c) = Bdiv mode_NE (rgb_g c) m /\
              rgb_b (@normalize _ ops c) = Bdiv mode_NE (rgb_b c) m) by (repeat split; reflexivity).
  destruct G as (Gr & Gg & Gb).
  repeat apply conj.
  - unfold hmax. rewrite Gr, Gg, Gb. cbn [rmax b_ops].
    (* a maximum of values <= 1, one of which is Bone, in any position *)
    assert (X : forall x y : fl, is_nan x = false -> is_nan y = false -> ev prec emax x <= 1 -> ev prec emax y <= 1 ->
       (x = Bone \/ y = Bone) -> b_max prec emax x y = Bone).
    { intros x y Nx Ny Ex Ey H. unfold b_max. rewrite Nx, Ny, ev_ltb by assumption.
      destruct (Rlt_bool_spec (ev prec emax x) (ev prec emax y)).
      - destruct H as [->|H]; [|exact H]. lra.
      - destruct H as [H| ->]; [exact H|]. apply B2R_inj.
        + destruct x as [s|[]| |]; try reflexivity; try discriminate; cbn [ev B2R] in *; pose proof (bpow_emax_ge2 prec emax); lra.
        + apply is_finite_strict_Bone.
        + rewrite <- (ev_fin _ _ x), <- (ev_fin _ _ Bone) by (apply is_finite_Bone ||
            (destruct x as [s|[]| |]; try reflexivity; try discriminate; cbn [ev B2R] in *; pose proof (bpow_emax_ge2 prec emax); lra)).
          lra. }
    assert (Y : forall x y : fl, is_nan x = false -> is_nan y = false -> ev prec emax x <= 1 -> ev prec emax y <= 1 ->
       is_nan (b_max prec emax x y) = false /\ ev prec emax (b_max prec emax x y) <= 1).
    { intros x y Nx Ny Ex Ey. unfold b_max. rewrite Nx, Ny. destruct (Bltb x y); split; assumption. }
    destruct (Y _ _ Ng Nb Eg Eb) as [Nm Em].
    apply X; try assumption.
    destruct E as [E|[E|E]].
    + left. rewrite <- E. exact S.
    + right. apply X; try assumption. left. rewrite <- E. exact S.
    + right. apply X; try assumption. right. rewrite <- E. exact S.
  - intros x Hx. rewrite Gr, Gg, Gb in Hx. cbn [In] in Hx.
    destruct Hx as [<-|[<-|[<-|[]]]]; apply leb_intro; try assumption; lra.
  - intro H. rewrite Gr, H. exact S.
  - intro H. rewrite Gg, H. exact S.
  - intro H. rewrite Gb, H. exact S.
Qed.

(* black becomes NaN *)
Theorem C05_normalize_refuted_black :
  @normalize _ ops (Rgb (B754_zero false) (B754_zero false) (B754_zero false))
  = Rgb B754_nan B754_nan B754_nan.
Proof. reflexivity. Qed.
End Clamp.
Print Assumptions C04_clamp.
Print Assumptions C05_normalize_partial.
Print Assumptions C05_normalize_refuted_black.

(* a colour without positive channel: its "normalised" largest component is not 1 *)
Theorem C05_normalize_refuted : forall (K : XConst),
  exists c : rgbf xr, c = FinRgb (-1, -2, -4) /\ normalize c = FinRgb (1, 2, 4)
  /\ hmax (normalize c) = Fin 4.
Proof.
  intro K. exists (FinRgb (-1, -2, -4)).
  assert (H : hmax (FinRgb (-1, -2, -4)) = Fin (-1)).
  { unfold hmax. cbn. f_equal. rewrite (Rmax_left (-2)), (Rmax_left (-1)) by lra. reflexivity. }
  assert (N : normalize (FinRgb (-1, -2, -4)) = FinRgb (1, 2, 4)).
  { unfold normalize. rewrite H. unfold rgb_div_s. cbn [FinRgb rgb_r rgb_g rgb_b].
    rewrite !x_div by lra. repeat (f_equal; try lra). }
  split; [reflexivity|]. split; [exact N|]. rewrite N. unfold hmax. cbn. f_equal.
  rewrite (Rmax_right 2), (Rmax_right 1) by lra. reflexivity.
Qed.
Print Assumptions C05_normalize_refuted.

(* ---- C06 ---- *)
Theorem C06_rgb_index : forall (A : Type) (c : rgbf A) (i : nat) (v : A),
  match c with Rgb r g b => nth_error [r; g; b] i end
    = match rgb_index c i with Ret x => Some x | _ => None end
  /\ ((3 <= i)%nat <-> rgb_index c i = Panic)
  /\ ((3 <= i)%nat <-> rgb_index_mut c i v = Panic)
  /\ (forall c', rgb_index_mut c i v = Ret c' ->
      rgb_index c' i = Ret v /\ forall j, j <> i -> rgb_index c' j = rgb_index c j).
Proof.
  intros A [r g b] i v. destruct i as [|[|[|i]]]; cbn.
  all: repeat split; try reflexivity; try (intros; discriminate); try (intros; lia).
  all: try (destruct i; reflexivity).
  all: try (injection H as <-; reflexivity).
  all: try (injection H as <-; intros [|[|[|j]]] Hj; try reflexivity; lia).
Qed.
Print Assumptions C06_rgb_index.
Theorem C06_xyz_index : forall (A : Type) (c : xyz A) (i : nat) (v : A),
  match c with Xyz r g b => nth_error [r; g; b] i end
    = match xyz_index c i with Ret x => Some x | _ => None end
  /\ ((3 <= i)%nat <-> xyz_index c i = Panic)
  /\ ((3 <= i)%nat <-> xyz_index_mut c i v = Panic)
  /\ (forall c', xyz_index_mut c i v = Ret c' ->
      xyz_index c' i = Ret v /\ forall j, j <> i -> xyz_index c' j = xyz_index c j).
Proof.
  intros A [r g b] i v. destruct i as [|[|[|i]]]; cbn.
  all: repeat split; try reflexivity; try (intros; discriminate); try (intros; lia).
  all: try (destruct i; reflexivity).
  all: try (injection H as <-; reflexivity).
  all: try (injection H as <-; intros [|[|[|j]]] Hj; try reflexivity; lia).
Qed.
Print Assumptions C06_xyz_index.
Theorem C06_matrix_index : forall (A : Type) (m : mat33 A) (i j : nat) (v : A),
  ((i < 3)%nat -> (j < 3)%nat -> Some (mat_index m i j) = option_map Ret (nth_error (mat_list m) (3 * i + j)))
  /\ ((3 <= i)%nat \/ (3 <= j)%nat <-> mat_index m i j = Panic)
  /\ ((3 <= i)%nat \/ (3 <= j)%nat <-> mat_index_mut m i j v = Panic)
  /\ (forall m', mat_index_mut m i j v = Ret m' ->
      mat_index m' i j = Ret v /\
      forall i' j', (i', j') <> (i, j) -> mat_index m' i' j' = mat_index m i' j').
Proof.
  intros A m i j v.
  assert (B : (3 <= i)%nat \/ (3 <= j)%nat -> mat_index m i j = Panic /\ mat_index_mut m i j v = Panic).
  { intros H. unfold mat_index, mat_index_mut, mat_row.
    destruct (Nat.leb_spec (i * 3 + 3) 9); [|split; reflexivity]. destruct H as [H|H]; [lia|].
    cbn [obind]. split.
    - unfold oindex. replace (nth_error (firstn 3 (skipn (i * 3) (mat_list m))) j) with (@None A); [reflexivity|].
      symmetry. apply nth_error_None. pose proof (firstn_le_length 3 (skipn (i * 3) (mat_list m))). lia.
    - destruct (Nat.ltb_spec j 3); [lia|reflexivity]. }
  assert (G : (i < 3)%nat -> (j < 3)%nat -> mat_index m i j = Ret (mget m i j) /\ mat_index_mut m i j v = Ret (mset m i j v)).
  { intros Hi Hj. destruct i as [|[|[|i]]]; try lia; destruct j as [|[|[|j]]]; try lia; split; reflexivity. }
  repeat split.
  - intros Hi Hj. destruct i as [|[|[|i]]]; try lia; destruct j as [|[|[|j]]]; try lia; reflexivity.
  - intro H. apply B, H.
  - intro H. destruct (Nat.le_gt_cases 3 i); [tauto|]. destruct (Nat.le_gt_cases 3 j); [tauto|].
    destruct (G ltac:(lia) ltac:(lia)) as [E _]. rewrite E in H. discriminate.
  - intro H. apply B, H.
  - intro H. destruct (Nat.le_gt_cases 3 i); [tauto|]. destruct (Nat.le_gt_cases 3 j); [tauto|].
    destruct (G ltac:(lia) ltac:(lia)) as [_ E]. rewrite E in H. discriminate.
  - revert H. destruct (Nat.le_gt_cases 3 i); [rewrite (proj2 (B ltac:(tauto))); discriminate|].
    destruct (Nat.le_gt_cases 3 j); [rewrite (proj2 (B ltac:(tauto))); discriminate|].
    rewrite (proj2 (G ltac:(lia) ltac:(lia))). intros [= <-].
    destruct i as [|[|[|i]]]; try lia; destruct j as [|[|[|j]]]; try lia; reflexivity.
  - revert H. destruct (Nat.le_gt_cases 3 i); [rewrite (proj2 (B ltac:(tauto))); discriminate|].
    destruct (Nat.le_gt_cases 3 j); [rewrite (proj2 (B ltac:(tauto))); discriminate|].
    rewrite (proj2 (G ltac:(lia) ltac:(lia))). intros [= <-] i' j' Hne.
    unfold mat_index, mat_row. destruct (Nat.leb_spec (i' * 3 + 3) 9); [|reflexivity].
    destruct (Nat.le_gt_cases 3 j').
    + cbn [obind]. unfold oindex.
      replace (nth_error (firstn 3 (skipn (i' * 3) (mat_list m))) j') with (@None A).
      * replace (nth_error (firstn 3 (skipn (i' * 3) (mat_list (mset m i j v)))) j') with (@None A); [reflexivity|].
        symmetry. apply nth_error_None. pose proof (firstn_le_length 3 (skipn (i' * 3) (mat_list (mset m i j v)))). lia.
      * symmetry. apply nth_error_None. pose proof (firstn_le_length 3 (skipn (i' * 3) (mat_list m))). lia.
    + clear B G. destruct i as [|[|[|i]]]; try lia; destruct j as [|[|[|j]]]; try lia;
      destruct i' as [|[|[|i']]]; try lia; destruct j' as [|[|[|j']]]; try lia;
      first [reflexivity | (elim Hne; reflexivity)].
Qed.
Print Assumptions C06_matrix_index.

(* ---- C07 ---- *)
Definition channels {A : Type} (p : rgbf A) : list A := match p with Rgb r g b => [r; g; b] end.

Theorem C07_cast_slice : forall (A : Type) (l : list A),
  (rgb_cast_slice l = Panic <-> (length l mod 3 <> 0)%nat)
  /\ (forall ps, rgb_cast_slice l = Ret ps -> flat_map channels ps = l /\ length ps = (length l / 3)%nat)
  /\ rgb_cast_slice l <> OutOfFuel.
Proof.
  intros A l.
  assert (X : forall n (l : list A), length l = (3 * n)%nat -> flat_map channels (group3 l) = l /\ length (group3 l) = n).
  { clear. induction n as [|n IH]; intros l H.
    - destruct l; [split; reflexivity|cbn in H; discriminate].
    - destruct l as [|a [|b [|c l]]]; cbn in H; try lia.
      destruct (IH l ltac:(lia)) as [E1 E2]. cbn. rewrite E1, E2. split; reflexivity. }
  unfold rgb_cast_slice. destruct (Nat.eqb_spec (length l mod 3) 0) as [E|E].
  - split; [split; [discriminate|contradiction]|]. split; [|discriminate].
    intros ps [= <-]. apply X. pose proof (Nat.div_mod (length l) 3 ltac:(lia)). lia.
  - split; [split; [intro; assumption|reflexivity]|]. split; [discriminate|discriminate].
Qed.
Print Assumptions C07_cast_slice.
Example C07_example : rgb_cast_slice [1; 2; 3; 4; 5; 6]%nat = Ret [Rgb 1 2 3; Rgb 4 5 6]%nat.
Proof. reflexivity. Qed.

(* ---- C08 ---- *)
(* any number type: channelwise left-to-right sums *)
Theorem C08_sum_channels : forall (T : Type) (OT : RealOps T) (l : list (rgbf T)) (m : list (xyz T)),
  rgb_sum l = Rgb (fold_left radd (map rgb_r l) (rlitd 0.0)) (fold_left radd (map rgb_g l) (rlitd 0.0))
                  (fold_left radd (map rgb_b l) (rlitd 0.0))
  /\ xyz_sum m = Xyz (fold_left radd (map xyz_x m) (rlitd 0.0)) (fold_left radd (map xyz_y m) (rlitd 0.0))
                  (fold_left radd (map xyz_z m) (rlitd 0.0)).
Proof.
  intros T OT l m.
  assert (R : forall a b c, fold_left rgb_add l (Rgb a b c) =
    Rgb (fold_left radd (map rgb_r l) a) (fold_left radd (map rgb_g l) b) (fold_left radd (map rgb_b l) c)).
  { induction l as [|x l IH]; intros a b c; [reflexivity|]. cbn. unfold rgb_add at 2. cbn. apply IH. }
  assert (X : forall a b c, fold_left xyz_add m (Xyz a b c) =
    Xyz (fold_left radd (map xyz_x m) a) (fold_left radd (map xyz_y m) b) (fold_left radd (map xyz_z m) c)).
  { induction m as [|x m IH]; intros a b c; [reflexivity|]. cbn. unfold xyz_add at 2. cbn. apply IH. }
  split; [apply R|apply X].
Qed.
Print Assumptions C08_sum_channels.

(* exact arithmetic: the sum of vectors *)
Definition vsum (l : list vec) : vec := fold_right vadd (0, 0, 0) l.

Theorem C08_sum_exact : forall (K : XConst) (l l' : list vec),
  rgb_sum (map FinRgb l) = FinRgb (vsum l)
  /\ xyz_sum (map FinXyz l) = FinXyz (vsum l)
  /\ (Permutation l l' -> rgb_sum (map FinRgb l) = rgb_sum (map FinRgb l')
        /\ xyz_sum (map FinXyz l) = xyz_sum (map FinXyz l'))
  /\ rgb_sum (map FinRgb (l ++ l')) = rgb_add (rgb_sum (map FinRgb l)) (rgb_sum (map FinRgb l'))
  /\ xyz_sum (map FinXyz (l ++ l')) = xyz_add (xyz_sum (map FinXyz l)) (xyz_sum (map FinXyz l')).
Proof.
  intros K.
  assert (Z : (rlitd 0.0 : xr) = Fin 0) by (rewrite x_litd; f_equal; unfold Q2R; cbn; lra).
  assert (VA : forall u v w, vadd (vadd u v) w = vadd u (vadd v w)).
  { intros [[? ?] ?] [[? ?] ?] [[? ?] ?]. cbn. vec_ring. }
  assert (V0 : forall u, vadd (0, 0, 0) u = u). { intros [[? ?] ?]. cbn. vec_ring. }
  assert (V0r : forall u, vadd u (0, 0, 0) = u). { intros [[? ?] ?]. cbn. vec_ring. }
  assert (VC : forall u v, vadd u v = vadd v u). { intros [[? ?] ?] [[? ?] ?]. cbn. vec_ring. }
  assert (R : forall l, rgb_sum (map FinRgb l) = FinRgb (vsum l)).
  { intro l. unfold rgb_sum, rgb_from_scalar. rewrite Z.
    transitivity (FinRgb (vadd (0, 0, 0) (vsum l))); [|rewrite V0; reflexivity].
    change (Rgb (Fin 0) (Fin 0) (Fin 0)) with (FinRgb (0, 0, 0)). generalize (0, 0, 0) at 1 2 as u.
    induction l as [|v l IH]; intro u; cbn [map fold_left].
    - cbn [vsum fold_right]. rewrite V0r. reflexivity.
    - replace (rgb_add (FinRgb u) (FinRgb v)) with (FinRgb (vadd u v)) by (destruct u as [[? ?] ?], v as [[? ?] ?]; reflexivity).
      rewrite IH. cbn [vsum fold_right]. rewrite VA. reflexivity. }
  assert (X : forall l, xyz_sum (map FinXyz l) = FinXyz (vsum l)).
  { intro l. unfold xyz_sum, xyz_from_scalar. rewrite Z.
    transitivity (FinXyz (vadd (0, 0, 0) (vsum l))); [|rewrite V0; reflexivity].
    change (Xyz (Fin 0) (Fin 0) (Fin 0)) with (FinXyz (0, 0, 0)). generalize (0, 0, 0) at 1 2 as u.
    induction l as [|v l IH]; intro u; cbn [map fold_left].
    - cbn [vsum fold_right]. rewrite V0r. reflexivity.
    - replace (xyz_add (FinXyz u) (FinXyz v)) with (FinXyz (vadd u v)) by (destruct u as [[? ?] ?], v as [[? ?] ?]; reflexivity).
      rewrite IH. cbn [vsum fold_right]. rewrite VA. reflexivity. }
  assert (P : forall l l', Permutation l l' -> vsum l = vsum l').
  { induction 1; cbn [vsum fold_right] in *.
    - reflexivity.
    - unfold vsum in IHPermutation. rewrite IHPermutation. reflexivity.
    - rewrite <- !VA, (VC y x). reflexivity.
    - congruence. }
  assert (A : forall l l', vsum (l ++ l') = vadd (vsum l) (vsum l')).
  { induction l as [|v l IH]; intro l'; cbn [vsum fold_right app].
    - rewrite V0. reflexivity.
    - unfold vsum in IH. rewrite IH, VA. reflexivity. }
  intros l l'. rewrite !R, !X, !A.
  repeat split.
  - rewrite (P _ _ H). reflexivity.
  - rewrite (P _ _ H). reflexivity.
  - destruct (vsum l) as [[? ?] ?], (vsum l') as [[? ?] ?]; reflexivity.
  - destruct (vsum l) as [[? ?] ?], (vsum l') as [[? ?] ?]; reflexivity.
Qed.
Print Assumptions C08_sum_exact.

(* ---- C09 ---- *)
(* bit-for-bit, any binary format *)
Theorem C09_bitwise_commutative : forall prec emax (Hp : Prec_gt_0 prec) (He : Prec_lt_emax prec emax)
  (L : libm (binary_float prec emax)) (lit : Q -> binary_float prec emax)
  (c d : rgbf (binary_float prec emax)) (u v : xyz (binary_float prec emax)) (k : binary_float prec emax),
  let OT := b_ops prec emax L lit in
  rgb_add c d = rgb_add d c /\ rgb_mul c d = rgb_mul d c
  /\ xyz_add u v = xyz_add v u /\ xyz_mul u v = xyz_mul v u
  /\ s_mul_rgb k c = rgb_mul_s c k /\ s_add_rgb k c = rgb_add_s c k.
Proof.
  intros prec emax Hp He L lit [r g b] [r' g' b'] [x y z] [x' y' z'] k OT.
  unfold rgb_add, rgb_mul, xyz_add, xyz_mul, s_mul_rgb, rgb_mul_s, s_add_rgb, rgb_add_s.
  cbn [rgb_r rgb_g rgb_b xyz_x xyz_y xyz_z radd rmul OT b_ops].
  repeat split; f_equal; (apply Bplus_comm || apply Bmult_comm || reflexivity).
Qed.
Print Assumptions C09_bitwise_commutative.

Theorem C09_vector_space : forall (K : XConst) (c d e : vec) (k j : R),
  let C := FinRgb c in let D := FinRgb d in let E := FinRgb e in
  rgb_add C D = rgb_add D C /\ rgb_add (rgb_add C D) E = rgb_add C (rgb_add D E)
  /\ rgb_add C rgb_zero = C /\ rgb_add C (rgb_neg C) = rgb_zero
  /\ rgb_sub (rgb_add C D) D = C /\ rgb_sub C D = rgb_add C (rgb_neg D)
  /\ rgb_mul_s (rgb_add C D) (Fin k) = rgb_add (rgb_mul_s C (Fin k)) (rgb_mul_s D (Fin k))
  /\ rgb_mul_s (rgb_mul_s C (Fin k)) (Fin j) = rgb_mul_s C (Fin (k * j))
  /\ rgb_mul_s C (Fin 1) = C /\ rgb_mul C rgb_one = C
  /\ s_sub_rgb (Fin k) C = rgb_neg (rgb_sub_s C (Fin k))
  /\ (k <> 0 -> rgb_mul_s (rgb_div_s C (Fin k)) (Fin k) = C).
Proof.
  intros K [[a b] c] [[a' b'] c'] [[a'' b''] c''] k j C D E. unfold C, D, E.
  repeat apply conj; try match goal with |- _ = _ => (cbv beta iota zeta delta [rgb_add rgb_sub rgb_neg rgb_zero rgb_one rgb_from_scalar rgb_mul rgb_mul_s
    s_sub_rgb rgb_sub_s FinRgb rgb_r rgb_g rgb_b radd rsub rmul rneg rzero rone xr_ops xlift2 xlift1]; fin_ring) end.
  intro Hk. unfold rgb_mul_s, rgb_div_s. cbn [FinRgb rgb_r rgb_g rgb_b]. rewrite !x_div, !x_mul by assumption.
  unfold FinRgb. f_equal; f_equal; field; assumption.
Qed.
Print Assumptions C09_vector_space.

Theorem C09_vector_space_xyz : forall (K : XConst) (c d e : vec) (k j : R),
  let C := FinXyz c in let D := FinXyz d in let E := FinXyz e in
  xyz_add C D = xyz_add D C /\ xyz_add (xyz_add C D) E = xyz_add C (xyz_add D E)
  /\ xyz_add C xyz_zero = C /\ xyz_add C (xyz_neg C) = xyz_zero
  /\ xyz_sub (xyz_add C D) D = C /\ xyz_sub C D = xyz_add C (xyz_neg D)
  /\ xyz_mul_s (xyz_add C D) (Fin k) = xyz_add (xyz_mul_s C (Fin k)) (xyz_mul_s D (Fin k))
  /\ xyz_mul_s (xyz_mul_s C (Fin k)) (Fin j) = xyz_mul_s C (Fin (k * j))
  /\ xyz_mul_s C (Fin 1) = C /\ xyz_mul C xyz_one = C
  /\ xyz_sub_s (xyz_add_s C (Fin k)) (Fin k) = C
  /\ (k <> 0 -> xyz_mul_s (xyz_div_s C (Fin k)) (Fin k) = C).
Proof.
  intros K [[a b] c] [[a' b'] c'] [[a'' b''] c''] k j C D E. unfold C, D, E.
  repeat apply conj; try match goal with |- _ = _ => (cbv beta iota zeta delta [xyz_add xyz_sub xyz_neg xyz_zero xyz_one xyz_from_scalar xyz_mul xyz_mul_s
    xyz_add_s xyz_sub_s FinXyz xyz_x xyz_y xyz_z radd rsub rmul rneg rzero rone xr_ops xlift2 xlift1]; fin_ring) end.
  intro Hk. unfold xyz_mul_s, xyz_div_s. cbn [FinXyz xyz_x xyz_y xyz_z]. rewrite !x_div, !x_mul by assumption.
  unfold FinXyz. f_equal; f_equal; field; assumption.
Qed.
Print Assumptions C09_vector_space_xyz.

Theorem C09_division : forall (K : XConst) (a b c a' b' c' : R), a' <> 0 -> b' <> 0 -> c' <> 0 ->
  rgb_mul (rgb_div (FinRgb (a, b, c)) (FinRgb (a', b', c'))) (FinRgb (a', b', c')) = FinRgb (a, b, c)
  /\ xyz_mul (xyz_div (FinXyz (a, b, c)) (FinXyz (a', b', c'))) (FinXyz (a', b', c')) = FinXyz (a, b, c).
Proof.
  intros K a b c a' b' c' Ha Hb Hc.
  unfold rgb_mul, rgb_div, xyz_mul, xyz_div. cbn [FinRgb FinXyz rgb_r rgb_g rgb_b xyz_x xyz_y xyz_z].
  rewrite !x_div, !x_mul by assumption. split; f_equal; f_equal; field; assumption.
Qed.
Print Assumptions C09_division.
