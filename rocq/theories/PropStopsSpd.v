(* C127: the fast conversions of spd.rs in f32 and exposure in whole stops *)
From Coq Require Import Reals ZArith QArith Qreals Lra Lia Bool List.
From Flocq Require Import Core BinarySingleNaN.
From Verif Require Import Outcome RealOps MathModel ColorModel SpdModel XReal FloatInst FloatProofs ErrProofs KahanProofs PropPixel PropKahan DataSpd PropFast PropStops.
Import ListNotations.
Open Scope R_scope.

Section Sums.
Context (prec emax : Z) {Hp : Prec_gt_0 prec} {He : Prec_lt_emax prec emax}.
Notation fl := (binary_float prec emax).
Notation fexp := (SpecFloat.fexp prec emax).
Notation rnd := (round radix2 fexp ZnearestE).
Notation bp := (bpow radix2).
Notation emin := (3 - emax - prec)%Z.
Local Instance vfexp' : Valid_exp fexp := fexp_correct prec emax Hp.

Lemma float_lat (x : fl) : lat emin (B2R x).
Proof. pose proof (generic_format_B2R prec emax x) as G. apply (lat_down (cexp radix2 fexp (B2R x))); [unfold cexp; rewrite fexp_max; lia|]. unfold generic_format, F2R in G. cbn [Fnum Fexp] in G. eexists. exact G. Qed.
(* sums of floats are scaled exactly at any size, since small ones are exact *)
Lemma rnd_scale_lat z k : (0 <= k)%Z -> lat emin z -> rnd (bp k * z) = bp k * rnd z.
Proof.
  intros K0 (m & E). destruct (Rle_lt_dec (bp (2 - emax)) (Rabs z)) as [B|B]; [apply rnd_scale; [exact K0|right; exact B]|].
  destruct (Req_dec z 0) as [->|NZ]; [rewrite Rmult_0_r, round_0 by apply valid_rnd_N; ring|].
  assert (M : (Raux.mag radix2 z <= 2 - emax)%Z) by (apply mag_le_bpow; assumption).
  assert (F1 : generic_format radix2 fexp z). { assert (E' : z = F2R (Float radix2 m emin)) by exact E. rewrite E'. apply generic_format_F2R. intros _. rewrite <- E'. unfold cexp. rewrite fexp_max. cbn [Fexp]. lia. }
  assert (F2 : generic_format radix2 fexp (bp k * z)). { assert (E' : bp k * z = F2R (Float radix2 m (emin + k))) by (rewrite E; unfold F2R; cbn [Fnum Fexp]; rewrite bpow_plus; ring). rewrite E'. apply generic_format_F2R. intros _. rewrite <- E'. unfold cexp. rewrite (Rmult_comm (bp k)), mag_mult_bpow by exact NZ. rewrite fexp_max. cbn [Fexp]. lia. }
  rewrite !round_generic; (reflexivity || apply valid_rnd_N || assumption).
Qed.

(* x' is x times 2^k, with its sign *)
Definition fq (k : Z) (x x' : fl) : Prop := is_finite x = true /\ is_finite x' = true /\ Bsign x' = Bsign x /\ B2R x' = bp k * B2R x.
(* ... unless it is not finite *)
Definition fqf (k : Z) (x x' : fl) : Prop := is_finite x' = true -> fq k x x'.
Lemma over_not_finite (r : fl) b : B2SF r = binary_overflow prec emax mode_NE b -> is_finite r = false.
Proof. intro E. rewrite <- is_finite_SF_B2SF, E. reflexivity. Qed.
Lemma less k z : (0 <= k)%Z -> Rlt_bool (Rabs (bp k * z)) (bp emax) = true -> Rlt_bool (Rabs z) (bp emax) = true.
Proof.
  intros K0 B. destruct (Rlt_bool_spec (Rabs (bp k * z)) (bp emax)) as [H|]; [|discriminate]. apply Rlt_bool_true. eapply Rle_lt_trans; [|exact H]. rewrite Rabs_mult, (Rabs_pos_eq (bp k)) by apply bpow_ge_0.
  rewrite <- (Rmult_1_l (Rabs z)) at 1. apply Rmult_le_compat_r; [apply Rabs_pos|]. change 1 with (bp 0). apply bpow_le, K0.
Qed.
Lemma plus_fin (x y : fl) : is_finite (Bplus mode_NE x y) = true -> is_finite x = true /\ is_finite y = true.
Proof. intro F. apply (add_err prec emax) in F. split; apply F. Qed.
Lemma minus_fin (x y : fl) : is_finite (Bminus mode_NE x y) = true -> is_finite x = true /\ is_finite y = true.
Proof. destruct x as [a|a| |a m e E], y as [b|b| |b n f G]; cbn; try destruct a, b; cbn; try discriminate; intros _; split; reflexivity. Qed.
Lemma mult_fin (x y : fl) : is_finite (Bmult mode_NE x y) = true -> is_finite x = true /\ is_finite y = true.
Proof. destruct x as [a|a| |a m e E], y as [b|b| |b n f G]; cbn; try discriminate; intros _; split; reflexivity. Qed.

Lemma fq_plus k x x' y y' : (0 <= k)%Z -> fqf k x x' -> fqf k y y' -> fqf k (Bplus mode_NE x y) (Bplus mode_NE x' y').
Proof.
  intros K0 X Y R. destruct (plus_fin _ _ R) as (RX & RY). destruct (X RX) as (F & F' & S & V). destruct (Y RY) as (G & G' & T & W).
  pose proof (Bplus_correct prec emax Hp He mode_NE x y F G) as C. pose proof (Bplus_correct prec emax Hp He mode_NE x' y' F' G') as C'. cbn [round_mode] in C, C'.
  replace (B2R x' + B2R y') with (bp k * (B2R x + B2R y)) in C' by (rewrite V, W; ring).
  assert (LM : lat emin (B2R x + B2R y)) by (apply lat_add; apply float_lat). rewrite (rnd_scale_lat _ k K0 LM) in C'.
  destruct (Rlt_bool (Rabs (bp k * _)) _) eqn:B in C'; [|destruct C' as (C' & _); rewrite (over_not_finite _ _ C') in R; discriminate]. rewrite (less k _ K0 B) in C.
  destruct C as (CV & CF & CS), C' as (CV' & CF' & CS').
  assert (RC : Rcompare (bp k * (B2R x + B2R y)) 0 = Rcompare (B2R x + B2R y) 0). { rewrite <- (Rmult_0_r (bp k)) at 1. apply Rcompare_mult_l, bpow_gt_0. }
  rewrite RC, S, T in CS'. repeat split; [exact CF|exact CF'|rewrite CS, CS'; reflexivity|rewrite CV, CV'; reflexivity].
Qed.
Lemma fq_minus k x x' y y' : (0 <= k)%Z -> fqf k x x' -> fqf k y y' -> fqf k (Bminus mode_NE x y) (Bminus mode_NE x' y').
Proof.
  intros K0 X Y R. destruct (minus_fin _ _ R) as (RX & RY). destruct (X RX) as (F & F' & S & V). destruct (Y RY) as (G & G' & T & W).
  pose proof (Bminus_correct prec emax Hp He mode_NE x y F G) as C. pose proof (Bminus_correct prec emax Hp He mode_NE x' y' F' G') as C'. cbn [round_mode] in C, C'.
  replace (B2R x' - B2R y') with (bp k * (B2R x - B2R y)) in C' by (rewrite V, W; ring).
  assert (LM : lat emin (B2R x - B2R y)). { destruct (float_lat x) as (m & Em), (float_lat y) as (n & En). exists (m - n)%Z. rewrite Em, En, minus_IZR. ring. }
  rewrite (rnd_scale_lat _ k K0 LM) in C'.
  destruct (Rlt_bool (Rabs (bp k * _)) _) eqn:B in C'; [|destruct C' as (C' & _); rewrite (over_not_finite _ _ C') in R; discriminate]. rewrite (less k _ K0 B) in C.
  destruct C as (CV & CF & CS), C' as (CV' & CF' & CS').
  assert (RC : Rcompare (bp k * (B2R x - B2R y)) 0 = Rcompare (B2R x - B2R y) 0). { rewrite <- (Rmult_0_r (bp k)) at 1. apply Rcompare_mult_l, bpow_gt_0. }
  rewrite RC, S, T in CS'. repeat split; [exact CF|exact CF'|rewrite CS, CS'; reflexivity|rewrite CV, CV'; reflexivity].
Qed.
Lemma fq_mul k x x' a : (0 <= k)%Z -> (B2R x * B2R a = 0 \/ bp (2 - emax) <= Rabs (B2R x * B2R a)) -> fqf k x x' -> fqf k (Bmult mode_NE x a) (Bmult mode_NE x' a).
Proof.
  intros K0 N X R. destruct (mult_fin _ _ R) as (RX & RA). destruct (X RX) as (F & F' & S & V).
  pose proof (Bmult_correct prec emax Hp He mode_NE x a) as C. pose proof (Bmult_correct prec emax Hp He mode_NE x' a) as C'. cbn [round_mode] in C, C'.
  replace (B2R x' * B2R a) with (bp k * (B2R x * B2R a)) in C' by (rewrite V; ring). rewrite (rnd_scale prec emax _ k K0 N) in C'.
  destruct (Rlt_bool (Rabs (bp k * _)) _) eqn:B in C'; [|rewrite (over_not_finite _ _ C') in R; discriminate]. rewrite (less k _ K0 B) in C.
  destruct C as (CV & CF & CS), C' as (CV' & CF' & CS'). rewrite F, RA in CF. specialize (CS (fin_nan _ _ _ CF)). specialize (CS' (fin_nan _ _ _ R)).
  repeat split; [exact CF|exact R|rewrite CS, CS', S; reflexivity|rewrite CV, CV'; reflexivity].
Qed.

(* compensated summation *)
Lemma fq_kahan k l : (0 <= k)%Z -> forall l' a a' c c', Forall2 (fqf k) l l' -> fqf k a a' -> fqf k c c' -> fqf k (fst (fold_left (kstep prec emax) l (a, c))) (fst (fold_left (kstep prec emax) l' (a', c'))).
Proof.
  intros K0. induction l as [|p l IH]; intros l' a a' c c' F A C; inversion F as [|? p' ? l2 P F2]; subst; [exact A|].
  cbn [fold_left]. unfold kstep at 2 4. cbv zeta. pose proof (fq_minus k _ _ _ _ K0 P C) as Y. pose proof (fq_plus k _ _ _ _ K0 A Y) as T.
  apply IH; [exact F2|exact T|]. exact (fq_minus k _ _ _ _ K0 (fq_minus k _ _ _ _ K0 T A) Y).
Qed.

Context (s : fl) (k : Z) (Fs : is_finite s = true) (Vs : B2R s = bp k) (K0 : (0 <= k)%Z).
Lemma fq_in x : is_finite x = true -> fqf k x (Bmult mode_NE x s).
Proof.
  intros F R. pose proof (Bmult_correct prec emax Hp He mode_NE x s) as C. cbn [round_mode] in C. replace (B2R x * B2R s) with (bp k * B2R x) in C by (rewrite Vs; ring).
  rewrite (rnd_scale_lat _ k K0 (float_lat x)), round_generic in C; [|apply valid_rnd_N|apply generic_format_B2R].
  destruct (Rlt_bool (Rabs (bp k * _)) _) in C; [|rewrite (over_not_finite _ _ C) in R; discriminate].
  destruct C as (CV & _ & CS). specialize (CS (fin_nan _ _ _ R)). rewrite (sign_s prec emax s k Fs Vs), xorb_false_r in CS. repeat split; assumption.
Qed.
Lemma fq_out y y' : fq k y y' -> y' = Bmult mode_NE y s.
Proof.
  intros (F & F' & S & V). pose proof (Bmult_correct prec emax Hp He mode_NE y s) as C. cbn [round_mode] in C. replace (B2R y * B2R s) with (bp k * B2R y) in C by (rewrite Vs; ring).
  rewrite (rnd_scale_lat _ k K0 (float_lat y)), round_generic in C; [|apply valid_rnd_N|apply generic_format_B2R]. rewrite <- V in C.
  rewrite Rlt_bool_true in C by apply abs_B2R_lt_emax. destruct C as (CV & CF & CS). rewrite F, Fs in CF. cbn [andb] in CF. specialize (CS (fin_nan _ _ _ CF)). rewrite (sign_s prec emax s k Fs Vs), xorb_false_r in CS.
  apply B2R_Bsign_inj; try assumption; congruence.
Qed.
End Sums.

(* zero, or at least 2^-79 *)
Definition heavy (x : f32) : Prop := B2R x = 0 \/ bpow radix2 (-79) <= Rabs (B2R x).
Definition heavyb (x : f32) : bool := good 24 128 140 x && ((zent 24 128 140 x =? 0) || (2 ^ 61 <=? Z.abs (zent 24 128 140 x)))%Z.
Lemma heavyb_ok x : heavyb x = true -> heavy x.
Proof.
  intro H. apply andb_true_iff in H. destruct H as (G & H). destruct (zent_ok 24 128 140 x ltac:(lia) G) as (_ & V). change 2%Z with (radix_val radix2) in V. rewrite IZR_Zpower in V by lia. pose proof (bpow_gt_0 radix2 140) as P.
  apply orb_true_iff in H. destruct H as [H|H]; [left|right].
  - apply Z.eqb_eq in H. rewrite H in V. symmetry in V. apply Rmult_integral in V. lra.
  - apply Z.leb_le in H. change 2%Z with (radix_val radix2) in H. apply IZR_le in H. rewrite IZR_Zpower, abs_IZR, V, Rabs_mult, (Rabs_pos_eq (bpow radix2 140)) in H by (lia || lra).
    apply (Rmult_le_reg_r (bpow radix2 140)); [exact P|]. rewrite <- bpow_plus. exact H.
Qed.
Lemma heavy_weights : Forall heavy (W32 data_W_X) /\ Forall heavy (W32 data_W_Y) /\ Forall heavy (W32 data_W_Z).
Proof. repeat split; apply Forall_forall; intros x I; apply heavyb_ok; revert x I; apply forallb_forall; vm_compute; reflexivity. Qed.
Lemma weight_lengths : length (W32 data_W_X) = 40%nat /\ length (W32 data_W_Y) = 40%nat /\ length (W32 data_W_Z) = 40%nat.
Proof. repeat split. Qed.

(* every sample is finite, and zero or at least 2^-47 *)
Definition lit_up (v : list f32) : Prop := length v = 40%nat /\ Forall (fun x => is_finite x = true /\ (B2R x = 0 \/ bpow radix2 (-47) <= Rabs (B2R x))) v.

Section Fast.
Context (L : libm f32) (s : f32) (k : Z) (Fs : is_finite s = true) (Vs : B2R s = bpow radix2 k) (K0 : (0 <= k)%Z).
Notation up v := (map (fun x : f32 => Bmult mode_NE x s) v).
Lemma scaled_spd v : length v = 40%nat -> @spd_mul _ (f32_ops L) v (@spd_constant _ s) = up v.
Proof.
  intro H. unfold spd_mul, spd_constant, spd_samples. rewrite <- H. clear H. induction v as [|x v IH]; [reflexivity|]. cbn [length repeat combine map]. rewrite IH. reflexivity.
Qed.
Lemma prods_up v : Forall (fun x : f32 => is_finite x = true /\ (B2R x = 0 \/ bpow radix2 (-47) <= Rabs (B2R x))) v -> forall w, Forall heavy w ->
  Forall2 (fqf 24 128 k) (map (fun '(a, b) => Bmult mode_NE a b) (combine v w)) (map (fun '(a, b) => Bmult mode_NE a b) (combine (up v) w)).
Proof.
  induction 1 as [|x v (F & B) _ IH]; intros [|y w] W; try constructor; inversion W as [|? ? H W2]; subst; [|apply IH; exact W2].
  apply fq_mul; [exact K0| |apply fq_in; assumption]. destruct B as [B|B]; [left; rewrite B; ring|]. destruct H as [H|H]; [left; rewrite H; ring|]. right. rewrite Rabs_mult. change (2 - 128)%Z with (-47 + -79)%Z. rewrite bpow_plus. apply Rmult_le_compat; try assumption; apply bpow_ge_0.
Qed.
Lemma zero_fq : fqf 24 128 k (B754_zero false) (B754_zero false).
Proof. intros _. repeat split. cbn [B2R]. ring. Qed.
Lemma scalar_up v : lit_up v -> let r := fast_scalar L v in let r' := fast_scalar L (up v) in
  fqf 24 128 k (xyz_x r) (xyz_x r') /\ fqf 24 128 k (xyz_y r) (xyz_y r') /\ fqf 24 128 k (xyz_z r) (xyz_z r').
Proof.
  intros (LV & B). assert (E : forall u : list f32, length u = 40%nat -> fast_scalar L u = Xyz (fst (fold_left (kstep 24 128) (prods u (W32 data_W_X)) (B754_zero false, B754_zero false))) (fst (fold_left (kstep 24 128) (prods u (W32 data_W_Y)) (B754_zero false, B754_zero false))) (fst (fold_left (kstep 24 128) (prods u (W32 data_W_Z)) (B754_zero false, B754_zero false)))).
  { intros u Lu. destruct weight_lengths as (Lx & Ly & Lz). destruct (scalar_terms L u _ _ _ (eq_trans Lx (eq_sym Lu)) (eq_trans Ly (eq_sym Lu)) (eq_trans Lz (eq_sym Lu))) as (T1 & T2 & T3).
    unfold fast_scalar, spd_to_xyz_scalar. cbv zeta in T1, T2, T3 |- *. change (O32f L) with (O32i L). rewrite (zero32 L). set (ts := map (fun '((s, x), (y, z)) => _) _) in *. rewrite (kahan_channels L). cbv zeta. cbn [fst]. rewrite T1, T2, T3. reflexivity. }
  cbv zeta. rewrite (E v LV), (E (up v)) by (rewrite map_length; exact LV). cbn [xyz_x xyz_y xyz_z]. destruct heavy_weights as (Hx & Hy & Hz).
  split; [|split]; (apply fq_kahan; [exact K0|apply prods_up; assumption|exact zero_fq|exact zero_fq]).
Qed.
Lemma cons_inv {A B} (R : A -> B -> Prop) a b l m : Forall2 R (a :: l) (b :: m) -> R a b /\ Forall2 R l m.
Proof. intro H. inversion H. split; assumption. Qed.
Lemma avx_up v w : lit_up v -> length w = 40%nat -> Forall heavy w -> fqf 24 128 k (@avx_channel _ (f32_ops L) w v) (@avx_channel _ (f32_ops L) w (up v)).
Proof.
  intros (Hv & B) Hw W. pose proof (prods_up v B w W) as P. clear B W. destruct (list40 v Hv) as (v0 & v1 & v2 & v3 & v4 & v5 & v6 & v7 & v8 & v9 & v10 & v11 & v12 & v13 & v14 & v15 & v16 & v17 & v18 & v19 & v20 & v21 & v22 & v23 & v24 & v25 & v26 & v27 & v28 & v29 & v30 & v31 & v32 & v33 & v34 & v35 & v36 & v37 & v38 & v39 & ->).
  destruct (list40 w Hw) as (w0 & w1 & w2 & w3 & w4 & w5 & w6 & w7 & w8 & w9 & w10 & w11 & w12 & w13 & w14 & w15 & w16 & w17 & w18 & w19 & w20 & w21 & w22 & w23 & w24 & w25 & w26 & w27 & w28 & w29 & w30 & w31 & w32 & w33 & w34 & w35 & w36 & w37 & w38 & w39 & ->). clear Hv Hw.
  cbn [combine map] in P |- *. repeat (let p := fresh "P" in apply cons_inv in P; destruct P as [p P]). clear P. rewrite !avx_tree.
  change (@radd _ (f32_ops L)) with (@Bplus 24 128 _ _ mode_NE). change (@rmul _ (f32_ops L)) with (@Bmult 24 128 _ _ mode_NE).
  repeat first [eassumption | refine (fq_plus 24 128 k _ _ _ _ K0 _ _)].
Qed.
End Fast.

(* brightening a spectrum by 2^k, k >= 0, brightens each component that does not overflow by exactly 2^k *)
Theorem C127_scalar (L : libm f32) (s : f32) k v : is_finite s = true -> B2R s = bpow radix2 k -> (0 <= k)%Z -> lit_up v ->
  let r := fast_scalar L v in let r' := fast_scalar L (@spd_mul _ (f32_ops L) v (@spd_constant _ s)) in
  (is_finite (xyz_x r') = true -> xyz_x r' = Bmult mode_NE (xyz_x r) s) /\ (is_finite (xyz_y r') = true -> xyz_y r' = Bmult mode_NE (xyz_y r) s) /\ (is_finite (xyz_z r') = true -> xyz_z r' = Bmult mode_NE (xyz_z r) s).
Proof.
  intros F V K0 B. cbv zeta. rewrite (scaled_spd L s v (proj1 B)). destruct (scalar_up L s k F V K0 v B) as (X & Y & Z).
  split; [|split]; intro H; apply (fq_out 24 128 s k F V K0); [apply X|apply Y|apply Z]; exact H.
Qed.
Theorem C127_avx (L : libm f32) (s : f32) k v : is_finite s = true -> B2R s = bpow radix2 k -> (0 <= k)%Z -> lit_up v ->
  let r := fast_avx L v in let r' := fast_avx L (@spd_mul _ (f32_ops L) v (@spd_constant _ s)) in
  (is_finite (xyz_x r') = true -> xyz_x r' = Bmult mode_NE (xyz_x r) s) /\ (is_finite (xyz_y r') = true -> xyz_y r' = Bmult mode_NE (xyz_y r) s) /\ (is_finite (xyz_z r') = true -> xyz_z r' = Bmult mode_NE (xyz_z r) s).
Proof.
  intros F V K0 B. cbv zeta. rewrite (scaled_spd L s v (proj1 B)). destruct heavy_weights as (Hx & Hy & Hz). destruct weight_lengths as (Lx & Ly & Lz).
  split; [|split]; intro H; apply (fq_out 24 128 s k F V K0); [apply (avx_up L s k F V K0 v (W32 data_W_X))|apply (avx_up L s k F V K0 v (W32 data_W_Y))|apply (avx_up L s k F V K0 v (W32 data_W_Z))]; assumption.
Qed.

(* the lower limit is needed: the least positive sample at 380 nm is lost before it is multiplied by 2^24 *)
Theorem C127_dark_refuted (L : libm f32) : exists (s : f32) v, is_finite s = true /\ B2R s = bpow radix2 24 /\ length v = 40%nat /\ Forall (fun x : f32 => is_finite x = true) v /\
  is_finite (xyz_x (fast_scalar L (@spd_mul _ (f32_ops L) v (@spd_constant _ s)))) = true /\ xyz_x (fast_scalar L (@spd_mul _ (f32_ops L) v (@spd_constant _ s))) <> Bmult mode_NE (xyz_x (fast_scalar L v)) s.
Proof.
  set (tiny := @B754_finite 24 128 false 1 (-149) eq_refl). exists (@B754_finite 24 128 false 8388608 1 eq_refl), (tiny :: repeat (B754_zero false) 39).
  split; [reflexivity|]. split; [cbn [B2R]; unfold F2R; cbn [Fnum Fexp cond_Zopp]; change (bpow radix2 1) with 2; change (bpow radix2 24) with 16777216; lra|]. split; [reflexivity|]. split; [repeat constructor|].
  split; [vm_compute; reflexivity|]. intro E. apply (f_equal B2SF) in E. vm_compute in E. discriminate E.
Qed.
(* an equal-energy spectrum with a dark end, two stops brighter *)
Example C127_example (L : libm f32) : let z n := b_of_Z 24 128 n in let v := z 0%Z :: repeat (z 1%Z) 39 in let r := fast_scalar L v in
  let r' := fast_scalar L (@spd_mul _ (f32_ops L) v (@spd_constant _ (z 4%Z))) in xyz_y r' = Bmult mode_NE (xyz_y r) (z 4%Z).
Proof.
  cbv zeta. assert (V : forall n, (Z.abs n <= 16)%Z -> is_finite (b_of_Z 24 128 n) = true /\ B2R (b_of_Z 24 128 n) = IZR n). { intros n Hn. destruct (b_of_Z_exact 24 128 n ltac:(change (2 ^ 24)%Z with 16777216%Z; lia)) as (V1 & V2 & _). split; [exact V2|exact V1]. }
  destruct (V 4%Z ltac:(lia)) as (F4 & V4). destruct (V 0%Z ltac:(lia)) as (F0 & V0). destruct (V 1%Z ltac:(lia)) as (F1 & V1).
  assert (B : lit_up (b_of_Z 24 128 0 :: repeat (b_of_Z 24 128 1) 39)).
  { split; [reflexivity|]. constructor; [split; [exact F0|left; exact V0]|]. apply Forall_forall. intros x I. apply repeat_spec in I. subst. split; [exact F1|]. right. rewrite V1, Rabs_R1. change 1 with (bpow radix2 0). apply bpow_le. lia. }
  refine (proj1 (proj2 (C127_scalar L (b_of_Z 24 128 4) 2 _ F4 V4 ltac:(lia) B)) _). vm_compute. reflexivity.
Qed.
