(* C125: L*a*b* and chromaticities in floating point do not depend on exposure in whole stops *)
From Coq Require Import Reals ZArith QArith Qreals Lra Lia Bool List.
From Flocq Require Import Core BinarySingleNaN.
From Verif Require Import Outcome RealOps MathModel ColorModel LabModel XReal FloatInst FloatProofs ErrProofs PropStops.
Open Scope R_scope.

Section Quot.
Context (prec emax : Z) {Hp : Prec_gt_0 prec} {He : Prec_lt_emax prec emax}.
Notation fl := (binary_float prec emax).
Notation bp := (bpow radix2).

(* x' is x times 2^k, with its sign *)
Definition sc (k : Z) (x x' : fl) : Prop := is_finite x = true /\ is_finite x' = true /\ Bsign x' = Bsign x /\ B2R x' = bp k * B2R x.
Lemma st_sc k q h x x' : st prec emax k q h x x' -> sc k x x'.
Proof. intros (A & B & C & D & _). repeat split; assumption. Qed.
Lemma sc_zero k b x' : sc k (B754_zero b) x' -> x' = B754_zero b.
Proof.
  intros (_ & F & S & V). cbn [B2R] in V. rewrite Rmult_0_r in V. cbn [Bsign] in S. destruct x' as [c|c| |c m e E]; try discriminate F; [cbn in S; subst; reflexivity|].
  exfalso. cbn [B2R] in V. apply eq_0_F2R in V. cbn in V. destruct c; discriminate.
Qed.
Lemma sc_nonzero k b m e E x' : sc k (B754_finite b m e E) x' -> exists m' e' E', x' = B754_finite b m' e' E'.
Proof.
  intros (_ & F & S & V). cbn [Bsign] in S. destruct x' as [c|c| |c m' e' E']; try discriminate F.
  - exfalso. cbn [B2R] in V. symmetry in V. apply Rmult_integral in V. destruct V as [V|V]; [pose proof (bpow_gt_0 radix2 k); lra|]. apply eq_0_F2R in V. cbn in V. destruct b; discriminate.
  - cbn in S. subst. eauto.
Qed.
(* the quotient of two numbers scaled alike is the same float: zero, infinity and NaN included *)
Lemma sc_div k x x' w w' : sc k x x' -> sc k w w' -> Bdiv mode_NE x' w' = Bdiv mode_NE x w.
Proof.
  intros X W. destruct (Req_dec (B2R w) 0) as [Z|N].
  - destruct w as [b|b| |b m e E]; try (destruct W; discriminate); [|exfalso; cbn [B2R] in Z; apply eq_0_F2R in Z; cbn in Z; destruct b; discriminate].
    rewrite (sc_zero k b w' W). destruct x as [c|c| |c m e E]; try (destruct X; discriminate).
    + rewrite (sc_zero k c x' X). reflexivity.
    + destruct (sc_nonzero k c m e E x' X) as (m' & e' & E' & ->). reflexivity.
  - destruct X as (FX & FX' & SX & VX), W as (FW & FW' & SW & VW). pose proof (bpow_gt_0 radix2 k) as P.
    assert (N' : B2R w' <> 0) by (rewrite VW; apply Rmult_integral_contrapositive; split; lra).
    assert (Q : B2R x' / B2R w' = B2R x / B2R w) by (rewrite VX, VW; field; split; lra).
    pose proof (Bdiv_correct prec emax Hp He mode_NE x w N) as C. pose proof (Bdiv_correct prec emax Hp He mode_NE x' w' N') as C'. rewrite Q, SX, SW in C'.
    destruct (Rlt_bool _ _) in C, C'.
    + destruct C as (CV & CF & CS), C' as (CV' & CF' & CS'). rewrite FX in CF. rewrite FX' in CF'. specialize (CS (fin_nan _ _ _ CF)). specialize (CS' (fin_nan _ _ _ CF')).
      apply B2R_Bsign_inj; try assumption; congruence.
    + apply B2SF_inj. congruence.
Qed.

Context (s : fl) (k : Z) (Fs : is_finite s = true) (Vs : B2R s = bp k) (K0 : (0 <= k)%Z).
Lemma sc_by lo h x : (2 - emax <= lo)%Z -> (0 <= h)%Z -> (h + k < emax)%Z -> ordinary prec emax lo h x -> sc k x (Bmult mode_NE x s).
Proof. intros A B C D. eapply st_sc. apply (st_in prec emax s k Fs Vs K0 lo h); assumption. Qed.

Context (L : libm fl) (lit : Q -> fl).
Notation ops := (b_ops prec emax L lit).
Definition ordinary3 (lo h : Z) (c : xyz fl) : Prop := ordinary prec emax lo h (xyz_x c) /\ ordinary prec emax lo h (xyz_y c) /\ ordinary prec emax lo h (xyz_z c).
Lemma lab_stops lo h c w : (2 - emax <= lo)%Z -> (0 <= h)%Z -> (h + k < emax)%Z -> ordinary3 lo h c -> ordinary3 lo h w ->
  @xyz_to_lab _ ops (@xyz_mul_s _ ops c s) (@xyz_mul_s _ ops w s) = @xyz_to_lab _ ops c w.
Proof.
  intros LO H0 HK (C1 & C2 & C3) (W1 & W2 & W3). unfold xyz_to_lab. 
  assert (E : @xyz_div _ ops (@xyz_mul_s _ ops c s) (@xyz_mul_s _ ops w s) = @xyz_div _ ops c w).
  { unfold xyz_div, xyz_mul_s. cbn [xyz_x xyz_y xyz_z]. f_equal; apply (sc_div k); eapply sc_by; eassumption. }
  rewrite E. reflexivity.
Qed.
Context (hundred : fl) (Vh : B2R hundred = 100) (Hl : lit 100.0%Q = hundred).
Lemma chroma_stops lo h c : (2 - emax <= lo - 7 + 1 - prec)%Z -> (0 <= h)%Z -> (h + 2 + k < emax)%Z -> ordinary3 lo h c ->
  let a := @xyy_from_xyz _ ops c in let b := @xyy_from_xyz _ ops (@xyz_mul_s _ ops c s) in
  xyy_x b = xyy_x a /\ xyy_y b = xyy_y a /\ xyy_Y b = Bmult mode_NE (xyy_Y a) s.
Proof.
  intros LO H0 HK (C1 & C2 & C3). assert (PP : (0 < prec)%Z) by exact Hp.
  assert (D : forall x, ordinary prec emax lo h x -> st prec emax k (lo - 7 + 1 - prec) h (Bdiv mode_NE x hundred) (Bdiv mode_NE (Bmult mode_NE x s) hundred)).
  { intros x O. apply (st_div prec emax k K0 hundred Vh); try lia; [exact O|]. apply (st_in prec emax s k Fs Vs K0); try lia. exact O. }
  pose proof (D _ C1) as D1. pose proof (D _ C2) as D2. pose proof (D _ C3) as D3.
  assert (S : st prec emax k (lo - 7 + 1 - prec) (h + 1 + 1) (Bplus mode_NE (Bplus mode_NE (Bdiv mode_NE (xyz_x c) hundred) (Bdiv mode_NE (xyz_y c) hundred)) (Bdiv mode_NE (xyz_z c) hundred))
    (Bplus mode_NE (Bplus mode_NE (Bdiv mode_NE (Bmult mode_NE (xyz_x c) s) hundred) (Bdiv mode_NE (Bmult mode_NE (xyz_y c) s) hundred)) (Bdiv mode_NE (Bmult mode_NE (xyz_z c) s) hundred))).
  { apply st_plus; try lia; [apply st_plus; try lia; assumption|]. eapply st_weak; [| |exact D3]; lia. }
  apply st_sc in S. unfold xyy_from_xyz, xyz_mul_s, xyz_div_s. cbn [xyz_x xyz_y xyz_z xyy_x xyy_y xyy_Y]. change (@rlit _ ops 100.0%Q) with (lit 100.0%Q). rewrite Hl.
  split; [apply (sc_div k); [eapply st_sc; exact D1|exact S]|]. split; [apply (sc_div k); [eapply st_sc; exact D2|exact S]|].
  apply (st_out prec emax s k Fs Vs K0 (lo - 7 + 1 - prec) h); try lia. exact D2.
Qed.
End Quot.

(* the white and the colour brightened alike have the same L*a*b*, whatever powf is *)
Theorem C125_lab_f32 (L : libm f32) s k c w : is_finite s = true -> B2R s = bpow radix2 k -> (0 <= k <= 60)%Z -> ordinary3 24 128 (-126) 60 c -> ordinary3 24 128 (-126) 60 w ->
  @xyz_to_lab _ (f32_ops L) (@xyz_mul_s _ (f32_ops L) c s) (@xyz_mul_s _ (f32_ops L) w s) = @xyz_to_lab _ (f32_ops L) c w.
Proof. intros F V K C W. apply (lab_stops 24 128 s k F V ltac:(lia) L _ (-126) 60); try assumption; lia. Qed.
Theorem C125_lab_f64 (L : libm f64) s k c w : is_finite s = true -> B2R s = bpow radix2 k -> (0 <= k <= 500)%Z -> ordinary3 53 1024 (-1022) 500 c -> ordinary3 53 1024 (-1022) 500 w ->
  @xyz_to_lab _ (f64_ops L) (@xyz_mul_s _ (f64_ops L) c s) (@xyz_mul_s _ (f64_ops L) w s) = @xyz_to_lab _ (f64_ops L) c w.
Proof. intros F V K C W. apply (lab_stops 53 1024 s k F V ltac:(lia) L _ (-1022) 500); try assumption; lia. Qed.
(* the chromaticity of a brightened colour is its chromaticity, and Y is brightened *)
Theorem C125_chromaticity_f32 (L : libm f32) s k c : is_finite s = true -> B2R s = bpow radix2 k -> (0 <= k <= 60)%Z -> ordinary3 24 128 (-96) 60 c ->
  let a := @xyy_from_xyz _ (f32_ops L) c in let b := @xyy_from_xyz _ (f32_ops L) (@xyz_mul_s _ (f32_ops L) c s) in
  xyy_x b = xyy_x a /\ xyy_y b = xyy_y a /\ xyy_Y b = Bmult mode_NE (xyy_Y a) s.
Proof.
  intros F V K C. apply (chroma_stops 24 128 s k F V ltac:(lia) L _ (f64_to_f32 (b_of_Q 53 1024 100.0))) with (lo := (-96)%Z) (h := 60%Z); try assumption; try lia; [|reflexivity].
  rewrite <- SF2R_B2SF. change (B2SF (f64_to_f32 (b_of_Q 53 1024 100.0))) with (SpecFloat.S754_finite false 13107200 (-17)).
  unfold SF2R, F2R. cbn [Fnum Fexp cond_Zopp]. change (bpow radix2 (-17)) with (/ 131072). lra.
Qed.
Theorem C125_chromaticity_f64 (L : libm f64) s k c : is_finite s = true -> B2R s = bpow radix2 k -> (0 <= k <= 500)%Z -> ordinary3 53 1024 (-960) 500 c ->
  let a := @xyy_from_xyz _ (f64_ops L) c in let b := @xyy_from_xyz _ (f64_ops L) (@xyz_mul_s _ (f64_ops L) c s) in
  xyy_x b = xyy_x a /\ xyy_y b = xyy_y a /\ xyy_Y b = Bmult mode_NE (xyy_Y a) s.
Proof.
  intros F V K C. apply (chroma_stops 53 1024 s k F V ltac:(lia) L _ (b_of_Q 53 1024 100.0)) with (lo := (-960)%Z) (h := 500%Z); try assumption; try lia; [|reflexivity].
  apply (b_of_Q_int 53 1024 100.0 100); [q2r; lra|cbn; lia].
Qed.

(* the colour (16, -3, 0), whose chromaticity is outside the triangle, four times brighter *)
Example C125_example (L : libm f32) : let z n := b_of_Z 24 128 n in let c := Xyz (z 16%Z) (z (-3)%Z) (z 0%Z) in
  let a := @xyy_from_xyz _ (f32_ops L) c in let b := @xyy_from_xyz _ (f32_ops L) (@xyz_mul_s _ (f32_ops L) c (z 4%Z)) in
  xyy_x b = xyy_x a /\ xyy_y b = xyy_y a /\ is_finite (xyy_x a) = true.
Proof.
  cbv zeta. assert (V : forall n, (Z.abs n <= 16)%Z -> is_finite (b_of_Z 24 128 n) = true /\ B2R (b_of_Z 24 128 n) = IZR n). { intros n Hn. destruct (b_of_Z_exact 24 128 n ltac:(change (2 ^ 24)%Z with 16777216%Z; lia)) as (V1 & V2 & _). split; [exact V2|exact V1]. }
  destruct (V 4%Z ltac:(lia)) as (F4 & V4).
  assert (OR : forall n, (Z.abs n <= 16)%Z -> ordinary 24 128 (-96) 60 (b_of_Z 24 128 n)).
  { intros n Hn. destruct (V n Hn) as (F & W). split; [exact F|]. rewrite W, <- abs_IZR. split.
    - destruct (Z.eq_dec n 0) as [->|N]; [left; reflexivity|right]. apply Rle_trans with 1; [change 1 with (bpow radix2 0); apply bpow_le; lia|]. apply IZR_le. lia.
    - apply Rle_trans with (bpow radix2 4); [|apply bpow_le; lia]. change (bpow radix2 4) with 16. apply IZR_le. exact Hn. }
  destruct (C125_chromaticity_f32 L (b_of_Z 24 128 4) 2%Z (Xyz (b_of_Z 24 128 16) (b_of_Z 24 128 (-3)) (b_of_Z 24 128 0)) F4 V4 ltac:(lia)) as (A & B & _); [split; [|split]; apply OR; cbn; lia|].
  split; [exact A|]. split; [exact B|]. vm_compute. reflexivity.
Qed.
