(* C124: linear conversions in floating point and exposure in whole stops *)
From Coq Require Import Reals ZArith QArith Qreals Lra Lia Bool List.
From Flocq Require Import Core BinarySingleNaN.
From Verif Require Import Outcome RealOps MathModel ColorModel AdaptModel SpaceModel IllumModel TransformModel XReal FloatInst FloatProofs ErrProofs PropPixel PropDaylight PropTrip.
Import ListNotations.
Open Scope R_scope.

Section Stops.
Context (prec emax : Z) {Hp : Prec_gt_0 prec} {He : Prec_lt_emax prec emax}.
Notation fl := (binary_float prec emax).
Notation fexp := (SpecFloat.fexp prec emax).
Notation rnd := (round radix2 fexp ZnearestE).
Notation bp := (bpow radix2).

Lemma fexp_max e : fexp e = Z.max (e - prec) (3 - emax - prec). Proof. reflexivity. Qed.
Local Instance vfexp : Valid_exp fexp := fexp_correct prec emax Hp.

(* rounding commutes with powers of two away from the subnormal numbers *)
Lemma rnd_scale x k : (0 <= k)%Z -> x = 0 \/ bp (2 - emax) <= Rabs x -> rnd (bp k * x) = bp k * rnd x.
Proof.
  intros K [->|B]; [rewrite Rmult_0_r, round_0 by apply valid_rnd_N; ring|].
  destruct (Req_dec x 0) as [->|NZ]; [rewrite Rmult_0_r, round_0 by apply valid_rnd_N; ring|].
  assert (G : (2 - emax + 1 <= mag radix2 x)%Z) by (apply mag_ge_bpow; replace (2 - emax + 1 - 1)%Z with (2 - emax)%Z by ring; exact B).
  assert (E : cexp radix2 fexp (bp k * x) = (k + cexp radix2 fexp x)%Z) by (unfold cexp; rewrite (Rmult_comm (bp k)), mag_mult_bpow by exact NZ; rewrite !fexp_max; lia).
  unfold round, F2R, scaled_mantissa. cbn [Fnum Fexp]. rewrite E, bpow_plus.
  replace (bp k * x * bp (- (k + cexp radix2 fexp x))) with (x * bp (- cexp radix2 fexp x)); [ring|].
  replace (- (k + cexp radix2 fexp x))%Z with (- k + - cexp radix2 fexp x)%Z by ring. rewrite bpow_plus, (bpow_opp radix2 k). field. apply Rgt_not_eq, bpow_gt_0.
Qed.

(* multiples of 2^q *)
Definition lat (q : Z) (x : R) : Prop := exists m, x = IZR m * bp q.
Lemma lat_down q p x : (p <= q)%Z -> lat q x -> lat p x.
Proof. intros H (m & ->). exists (m * 2 ^ (q - p))%Z. rewrite mult_IZR. change 2%Z with (radix_val radix2). rewrite IZR_Zpower by lia. rewrite Rmult_assoc, <- bpow_plus. do 2 f_equal. ring. Qed.
Lemma lat_big q x : lat q x -> x = 0 \/ bp q <= Rabs x.
Proof.
  intros (m & ->). destruct (Z.eq_dec m 0) as [->|N]; [left; ring|right]. pose proof (bpow_gt_0 radix2 q) as G. rewrite Rabs_mult, (Rabs_pos_eq (bp q)) by lra. rewrite <- (Rmult_1_l (bp q)) at 1. apply Rmult_le_compat_r; [lra|]. rewrite <- abs_IZR. apply IZR_le. lia.
Qed.
Lemma lat_mul p q x y : lat p x -> lat q y -> lat (p + q) (x * y).
Proof. intros (m & ->) (n & ->). exists (m * n)%Z. rewrite mult_IZR, bpow_plus. ring. Qed.
Lemma lat_add q x y : lat q x -> lat q y -> lat q (x + y).
Proof. intros (m & ->) (n & ->). exists (m + n)%Z. rewrite plus_IZR. ring. Qed.
Lemma lat_rnd q x : lat q x -> lat q (rnd x).
Proof.
  intros (m & E). destruct (Z_le_gt_dec (cexp radix2 fexp x) q) as [C|C].
  - rewrite round_generic; [exists m; exact E|apply valid_rnd_N|]. assert (E' : x = F2R (Float radix2 m q)) by exact E. rewrite E'. apply generic_format_F2R. intros _. rewrite <- E'. exact C.
  - apply (lat_down (cexp radix2 fexp x)); [lia|]. unfold round, F2R. cbn [Fnum Fexp]. eexists. reflexivity.
Qed.
Lemma lat_format e x : generic_format radix2 fexp x -> x = 0 \/ bp e <= Rabs x -> lat (e + 1 - prec) x.
Proof.
  intros G [->|B]; [exists 0%Z; ring|]. assert (M : (e + 1 <= mag radix2 x)%Z) by (apply mag_ge_bpow; replace (e + 1 - 1)%Z with e by ring; exact B).
  apply (lat_down (cexp radix2 fexp x)); [unfold cexp; rewrite fexp_max; lia|]. unfold generic_format, F2R in G. cbn [Fnum Fexp] in G. eexists. exact G.
Qed.

(* x' is x brightened by k stops *)
Definition st (k q h : Z) (x x' : fl) : Prop := is_finite x = true /\ is_finite x' = true /\ Bsign x' = Bsign x /\ B2R x' = bp k * B2R x /\ lat q (B2R x) /\ Rabs (B2R x) <= bp h.
Lemma st_weak k q h p g x x' : (p <= q)%Z -> (h <= g)%Z -> st k q h x x' -> st k p g x x'.
Proof. intros P G (A & B & C & D & E & F). repeat split; try assumption; [apply (lat_down q); assumption|]. eapply Rle_trans; [exact F|apply bpow_le, G]. Qed.

Lemma rnd_le h x : (0 <= h)%Z -> Rabs x <= bp h -> Rabs (rnd x) <= bp h.
Proof. intros H B. apply abs_round_le_generic; [apply vfexp|apply valid_rnd_N| |exact B]. apply generic_format_bpow. rewrite fexp_max. red in Hp, He. lia. Qed.
Lemma rnd_below h x : (0 <= h < emax)%Z -> Rabs x <= bp h -> Rlt_bool (Rabs (rnd x)) (bp emax) = true.
Proof. intros H B. apply Rlt_bool_true. eapply Rle_lt_trans; [apply rnd_le; [apply H|exact B]|]. apply bpow_lt. lia. Qed.
Lemma scaled_le k h x : Rabs x <= bp h -> Rabs (bp k * x) <= bp (h + k).
Proof. intro B. pose proof (bpow_ge_0 radix2 k). rewrite Rabs_mult, (Rabs_pos_eq (bp k)) by assumption. rewrite Z.add_comm, bpow_plus. apply Rmult_le_compat_l; assumption. Qed.
Lemma mul_le g h x y : Rabs x <= bp g -> Rabs y <= bp h -> Rabs (x * y) <= bp (g + h).
Proof. intros A B. rewrite Rabs_mult, bpow_plus. apply Rmult_le_compat; try assumption; apply Rabs_pos. Qed.
Lemma big_enough q x : (2 - emax <= q)%Z -> lat q x -> x = 0 \/ bp (2 - emax) <= Rabs x.
Proof. intros Q A. destruct (lat_big q x A) as [Z|B]; [left; exact Z|right]. eapply Rle_trans; [apply bpow_le, Q|exact B]. Qed.
Lemma fin_nan (x : fl) : is_finite x = true -> is_nan x = false. Proof. destruct x; cbn; congruence. Qed.

Definition coef (q h : Z) (a : fl) : Prop := is_finite a = true /\ lat q (B2R a) /\ Rabs (B2R a) <= bp h.
Lemma st_mul k q h p g a x x' : (0 <= k)%Z -> (0 <= g)%Z -> (0 <= h)%Z -> (2 - emax <= p + q)%Z -> (g + h + k < emax)%Z -> coef p g a -> st k q h x x' -> st k (p + q) (g + h) (Bmult mode_NE a x) (Bmult mode_NE a x').
Proof.
  intros K G0 H0 Q H (Fa & La & Ba) (F & F' & S & V & L & B).
  pose proof (lat_mul _ _ _ _ La L) as LM. pose proof (mul_le _ _ _ _ Ba B) as BM.
  pose proof (Bmult_correct prec emax Hp He mode_NE a x) as C. pose proof (Bmult_correct prec emax Hp He mode_NE a x') as C'. cbn [round_mode] in C, C'.
  replace (B2R a * B2R x') with (bp k * (B2R a * B2R x)) in C' by (rewrite V; ring).
  rewrite (rnd_below (g + h)) in C by (assumption || lia). rewrite (rnd_below (g + h + k)) in C' by (try lia; apply scaled_le; exact BM).
  destruct C as (CV & CF & CS), C' as (CV' & CF' & CS'). rewrite Fa, F in CF. rewrite Fa, F' in CF'. cbn [andb] in CF, CF'. specialize (CS (fin_nan _ CF)). specialize (CS' (fin_nan _ CF')).
  repeat split; [exact CF|exact CF'|rewrite CS, CS', S; reflexivity| | |].
  - rewrite CV, CV'. apply rnd_scale; [exact K|]. apply (big_enough (p + q)); assumption.
  - rewrite CV. apply lat_rnd, LM.
  - rewrite CV. apply rnd_le; [lia|exact BM].
Qed.
Lemma st_mul_r k q h p g a x x' : (0 <= k)%Z -> (0 <= g)%Z -> (0 <= h)%Z -> (2 - emax <= p + q)%Z -> (g + h + k < emax)%Z -> coef p g a -> st k q h x x' -> st k (p + q) (g + h) (Bmult mode_NE x a) (Bmult mode_NE x' a).
Proof.
  intros K G0 H0 Q H (Fa & La & Ba) (F & F' & S & V & L & B).
  pose proof (lat_mul _ _ _ _ La L) as LM. pose proof (mul_le _ _ _ _ Ba B) as BM. rewrite Rmult_comm in LM, BM.
  pose proof (Bmult_correct prec emax Hp He mode_NE x a) as C. pose proof (Bmult_correct prec emax Hp He mode_NE x' a) as C'. cbn [round_mode] in C, C'.
  replace (B2R x' * B2R a) with (bp k * (B2R x * B2R a)) in C' by (rewrite V; ring).
  rewrite (rnd_below (g + h)) in C by (assumption || lia). rewrite (rnd_below (g + h + k)) in C' by (try lia; apply scaled_le; exact BM).
  destruct C as (CV & CF & CS), C' as (CV' & CF' & CS'). rewrite Fa, F in CF. rewrite Fa, F' in CF'. cbn [andb] in CF, CF'. specialize (CS (fin_nan _ CF)). specialize (CS' (fin_nan _ CF')).
  repeat split; [exact CF|exact CF'|rewrite CS, CS', S; reflexivity| | |].
  - rewrite CV, CV'. apply rnd_scale; [exact K|]. apply (big_enough (p + q)); assumption.
  - rewrite CV. apply lat_rnd, LM.
  - rewrite CV. apply rnd_le; [lia|exact BM].
Qed.
Lemma st_plus k q h x x' y y' : (0 <= k)%Z -> (0 <= h)%Z -> (2 - emax <= q)%Z -> (h + 1 + k < emax)%Z -> st k q h x x' -> st k q h y y' -> st k q (h + 1) (Bplus mode_NE x y) (Bplus mode_NE x' y').
Proof.
  intros K H0 Q H (F & F' & S & V & L & B) (G & G' & T & W & M & D).
  pose proof (lat_add _ _ _ L M) as LM. assert (BM : Rabs (B2R x + B2R y) <= bp (h + 1)) by (eapply Rle_trans; [apply Rabs_triang|]; rewrite bpow_plus; change (bp 1) with 2; lra).
  pose proof (Bplus_correct prec emax Hp He mode_NE x y F G) as C. pose proof (Bplus_correct prec emax Hp He mode_NE x' y' F' G') as C'. cbn [round_mode] in C, C'.
  replace (B2R x' + B2R y') with (bp k * (B2R x + B2R y)) in C' by (rewrite V, W; ring).
  rewrite (rnd_below (h + 1)) in C by (assumption || lia). rewrite (rnd_below (h + 1 + k)) in C' by (try lia; apply scaled_le; exact BM).
  destruct C as (CV & CF & CS), C' as (CV' & CF' & CS').
  assert (RC : Rcompare (bp k * (B2R x + B2R y)) 0 = Rcompare (B2R x + B2R y) 0). { rewrite <- (Rmult_0_r (bp k)) at 1. apply Rcompare_mult_l, bpow_gt_0. }
  rewrite RC, S, T in CS'.
  repeat split; [exact CF|exact CF'|rewrite CS, CS'; reflexivity| | |].
  - rewrite CV, CV'. apply rnd_scale; [exact K|]. apply (big_enough q); assumption.
  - rewrite CV. apply lat_rnd, LM.
  - rewrite CV. apply rnd_le; [lia|exact BM].
Qed.
Lemma st_dot k q h p g a b c x x' y y' z z' : (0 <= k)%Z -> (0 <= g)%Z -> (0 <= h)%Z -> (2 - emax <= p + q)%Z -> (g + h + 2 + k < emax)%Z -> coef p g a -> coef p g b -> coef p g c -> st k q h x x' -> st k q h y y' -> st k q h z z' ->
  st k (p + q) (g + h + 2) (fdot prec emax a b c x y z) (fdot prec emax a b c x' y' z').
Proof.
  intros K G0 H0 Q H A B C X Y Z. unfold fdot. replace (g + h + 2)%Z with (g + h + 1 + 1)%Z by ring. apply st_plus; try lia.
  - apply st_plus; try lia; apply st_mul; try assumption; lia.
  - apply (st_weak k (p + q) (g + h)); [lia|lia|]. apply st_mul; try assumption; lia.
Qed.

(* zero, or of ordinary size *)
Definition ordinary (lo h : Z) (x : fl) : Prop := is_finite x = true /\ (B2R x = 0 \/ bp lo <= Rabs (B2R x)) /\ Rabs (B2R x) <= bp h.
Context (s : fl) (k : Z) (Fs : is_finite s = true) (Vs : B2R s = bp k) (K0 : (0 <= k)%Z).
Lemma sign_s : Bsign s = false.
Proof. destruct s as [b|b| |b m e E]; try discriminate; [cbn in Vs; pose proof (bpow_gt_0 radix2 k); lra|]. destruct b; [|reflexivity]. exfalso. cbn [B2R cond_Zopp] in Vs. pose proof (bpow_gt_0 radix2 k) as G. pose proof (F2R_lt_0 radix2 (Float radix2 (Zneg m) e) ltac:(reflexivity)) as N. cbn in N, Vs. lra. Qed.
Lemma by_s (x : fl) : is_finite x = true -> B2R x = 0 \/ bp (2 - emax) <= Rabs (B2R x) -> (exists h, Rabs (B2R x) <= bp h /\ (0 <= h)%Z /\ (h + k < emax)%Z) ->
  is_finite (Bmult mode_NE x s) = true /\ Bsign (Bmult mode_NE x s) = Bsign x /\ B2R (Bmult mode_NE x s) = bp k * B2R x.
Proof.
  intros F B (h & H & H0 & HK). pose proof (Bmult_correct prec emax Hp He mode_NE x s) as C. cbn [round_mode] in C. replace (B2R x * B2R s) with (bp k * B2R x) in C by (rewrite Vs; ring).
  rewrite (rnd_below (h + k)) in C by (try lia; apply scaled_le; exact H). destruct C as (CV & CF & CS). rewrite F, Fs in CF. cbn [andb] in CF. specialize (CS (fin_nan _ CF)). rewrite sign_s, xorb_false_r in CS.
  split; [exact CF|]. split; [exact CS|]. rewrite CV, rnd_scale by assumption. rewrite round_generic; [reflexivity|apply valid_rnd_N|]. apply generic_format_B2R.
Qed.
Lemma st_in lo h x : (2 - emax <= lo)%Z -> (0 <= h)%Z -> (h + k < emax)%Z -> ordinary lo h x -> st k (lo + 1 - prec) h x (Bmult mode_NE x s).
Proof.
  intros LO H0 HK (F & B & H). assert (B' : B2R x = 0 \/ bp (2 - emax) <= Rabs (B2R x)) by (destruct B as [Z|B]; [left; exact Z|right; eapply Rle_trans; [apply bpow_le, LO|exact B]]).
  destruct (by_s x F B' (ex_intro _ h (conj H (conj H0 HK)))) as (F' & S & V). repeat split; try assumption. apply lat_format; [apply generic_format_B2R|exact B].
Qed.
Lemma st_out q h y y' : (2 - emax <= q)%Z -> (0 <= h)%Z -> (h + k < emax)%Z -> st k q h y y' -> y' = Bmult mode_NE y s.
Proof.
  intros Q H0 HK (F & F' & S & V & L & B). destruct (by_s y F (big_enough q _ Q L) (ex_intro _ h (conj B (conj H0 HK)))) as (F2 & S2 & V2).
  apply B2R_Bsign_inj; try assumption; congruence.
Qed.
Context (hundred : fl) (Fh : is_finite hundred = true) (Vh : B2R hundred = 100).
Lemma st_div lo h x x' : (2 - emax <= lo - 7)%Z -> (0 <= h)%Z -> (h + k < emax)%Z -> ordinary lo h x -> st k (lo + 1 - prec) h x x' -> st k (lo - 7 + 1 - prec) h (Bdiv mode_NE x hundred) (Bdiv mode_NE x' hundred).
Proof.
  intros LO H0 HK (_ & BL & _) (F & F' & S & V & _ & B). assert (N : B2R hundred <> 0) by (rewrite Vh; lra).
  assert (DV : forall y, Rabs (y / 100) = Rabs y / 100) by (intro y; unfold Rdiv; rewrite Rabs_mult, (Rabs_pos_eq (/ 100)) by lra; reflexivity).
  assert (BM : Rabs (B2R x / 100) <= bp h) by (rewrite DV; pose proof (Rabs_pos (B2R x)); lra).
  assert (LM : B2R x / 100 = 0 \/ bp (lo - 7) <= Rabs (B2R x / 100)). { destruct BL as [Z|BL]; [left; rewrite Z; lra|right]. rewrite DV. unfold Z.sub. rewrite bpow_plus. change (bp (- (7))) with (/ 128). pose proof (bpow_gt_0 radix2 lo). lra. }
  pose proof (Bdiv_correct prec emax Hp He mode_NE x hundred N) as C. pose proof (Bdiv_correct prec emax Hp He mode_NE x' hundred N) as C'. cbn [round_mode] in C, C'. rewrite Vh in C, C'.
  replace (B2R x' / 100) with (bp k * (B2R x / 100)) in C' by (rewrite V; field).
  rewrite (rnd_below h) in C by (assumption || lia). rewrite (rnd_below (h + k)) in C' by (try lia; apply scaled_le; exact BM).
  destruct C as (CV & CF & CS), C' as (CV' & CF' & CS'). rewrite F in CF. rewrite F' in CF'. specialize (CS (fin_nan _ CF)). specialize (CS' (fin_nan _ CF')).
  repeat split; [exact CF|exact CF'|rewrite CS, CS', S; reflexivity| | |].
  - rewrite CV, CV'. apply rnd_scale; [exact K0|]. destruct LM as [Z|LM]; [left; exact Z|right; eapply Rle_trans; [apply bpow_le, LO|exact LM]].
  - apply lat_format; [apply generic_format_B2R|]. rewrite CV. destruct LM as [Z|LM]; [left; rewrite Z; apply round_0, valid_rnd_N|right].
    apply abs_round_ge_generic; [apply vfexp|apply valid_rnd_N| |exact LM]. apply generic_format_bpow. rewrite fexp_max. red in Hp, He. lia.
  - rewrite CV. apply rnd_le; [exact H0|exact BM].
Qed.

(* conversions *)
Context (L : libm fl) (lit : Q -> fl) (Hl : lit 100.0%Q = hundred).
Notation ops := (b_ops prec emax L lit).
Definition mcoef (p g : Z) (A : mat33 fl) : Prop := Forall (coef p g) (mat_list A).
Lemma mcoef_inv p g A : mcoef p g A -> (coef p g (mx0 A) /\ coef p g (mx1 A) /\ coef p g (mx2 A)) /\ (coef p g (mx3 A) /\ coef p g (mx4 A) /\ coef p g (mx5 A)) /\ (coef p g (mx6 A) /\ coef p g (mx7 A) /\ coef p g (mx8 A)).
Proof. intro H. unfold mcoef in H. rewrite Forall_forall in H. repeat split; apply H; cbn; auto 12. Qed.
Context (p g lo h : Z) (G0 : (0 <= g)%Z) (H0 : (0 <= h)%Z) (PL : (2 - emax <= p + (lo - 7 + 1 - prec))%Z) (PP : (p <= 0)%Z) (LO : (2 - emax <= lo - 7)%Z) (LI : (lo <= 0)%Z) (HK : (g + h + 9 + k < emax)%Z).
Lemma scale_rgb A (c : rgbf fl) : mcoef p g A -> ordinary lo h (rgb_r c) -> ordinary lo h (rgb_g c) -> ordinary lo h (rgb_b c) ->
  @rgb_to_xyz _ ops A (@rgb_mul_s _ ops c s) = @xyz_mul_s _ ops (@rgb_to_xyz _ ops A c) s.
Proof.
  intros MA X Y Z. destruct (mcoef_inv _ _ _ MA) as ((A0 & A1 & A2) & (A3 & A4 & A5) & A6 & A7 & A8).
  apply (st_in lo h) in X; try lia. apply (st_in lo h) in Y; try lia. apply (st_in lo h) in Z; try lia.
  assert (CH : coef 0 7 hundred). { split; [exact Fh|]. rewrite Vh. split; [exists 100%Z; cbn; lra|]. rewrite Rabs_pos_eq by lra. change (bp 7) with 128. lra. }
  assert (D : forall a b d, coef p g a -> coef p g b -> coef p g d -> Bmult mode_NE (fdot prec emax a b d (Bmult mode_NE (rgb_r c) s) (Bmult mode_NE (rgb_g c) s) (Bmult mode_NE (rgb_b c) s)) hundred = Bmult mode_NE (Bmult mode_NE (fdot prec emax a b d (rgb_r c) (rgb_g c) (rgb_b c)) hundred) s).
  { intros a b d Ca Cb Cd. apply (st_out (0 + (p + (lo + 1 - prec))) (7 + (g + h + 2))); try lia. apply st_mul_r; try lia; [exact CH|]. apply st_dot; try assumption; lia. }
  unfold rgb_to_xyz, mat_mul_rgb, rgb_mul_s, xyz_mul_s, xyz_mul, xyz_from_scalar. cbn [rgb_r rgb_g rgb_b xyz_x xyz_y xyz_z]. change (@rlit _ ops 100.0%Q) with (lit 100.0%Q). rewrite Hl. f_equal; apply D; assumption.
Qed.
Lemma scale_xyz A (c : xyz fl) : mcoef p g A -> ordinary lo h (xyz_x c) -> ordinary lo h (xyz_y c) -> ordinary lo h (xyz_z c) ->
  @xyz_to_rgb _ ops A (@xyz_mul_s _ ops c s) = @rgb_mul_s _ ops (@xyz_to_rgb _ ops A c) s.
Proof.
  intros MA X Y Z. destruct (mcoef_inv _ _ _ MA) as ((A0 & A1 & A2) & (A3 & A4 & A5) & A6 & A7 & A8).
  assert (DD : forall x, ordinary lo h x -> st k (lo - 7 + 1 - prec) h (Bdiv mode_NE x hundred) (Bdiv mode_NE (Bmult mode_NE x s) hundred)). { intros x OX. apply st_div; try lia; [exact OX|]. apply st_in; try lia. exact OX. }
  apply DD in X. apply DD in Y. apply DD in Z.
  assert (D : forall a b d, coef p g a -> coef p g b -> coef p g d -> fdot prec emax a b d (Bdiv mode_NE (Bmult mode_NE (xyz_x c) s) hundred) (Bdiv mode_NE (Bmult mode_NE (xyz_y c) s) hundred) (Bdiv mode_NE (Bmult mode_NE (xyz_z c) s) hundred) = Bmult mode_NE (fdot prec emax a b d (Bdiv mode_NE (xyz_x c) hundred) (Bdiv mode_NE (xyz_y c) hundred) (Bdiv mode_NE (xyz_z c) hundred)) s).
  { intros a b d Ca Cb Cd. apply (st_out (p + (lo - 7 + 1 - prec)) (g + h + 2)); try lia. apply st_dot; try assumption; lia. }
  unfold xyz_to_rgb, mat_mul_xyz, rgb_mul_s, xyz_mul_s, xyz_div, xyz_from_scalar. cbn [rgb_r rgb_g rgb_b xyz_x xyz_y xyz_z]. change (@rlit _ ops 100.0%Q) with (lit 100.0%Q). rewrite Hl. f_equal; apply D; assumption.
Qed.
End Stops.

(* the entries of a matrix are multiples of 2^-k below 8 *)
Definition coefs p e (k : Z) (A : mat33 (binary_float p e)) : bool := forallb (fun x => good p e k x && (Z.abs (zent p e k x) <=? 2 ^ (k + 3))%Z) (mat_list A).
Lemma coefs_spec p e k (A : mat33 (binary_float p e)) : (0 <= k)%Z -> coefs p e k A = true -> mcoef p e (- k) 3 A.
Proof.
  intros K C. unfold coefs in C. rewrite forallb_forall in C. apply Forall_forall. intros x I. specialize (C x I). apply andb_true_iff in C. destruct C as (G & B). apply Z.leb_le in B.
  destruct (zent_ok p e k x K G) as (F & V). pose proof (bpow_gt_0 radix2 k) as P. change 2%Z with (radix_val radix2) in V, B. rewrite IZR_Zpower in V by exact K.
  assert (E : B2R x = IZR (zent p e k x) * bpow radix2 (- k)) by (rewrite V, bpow_opp; field; lra).
  split; [exact F|]. split; [eexists; exact E|]. rewrite E, Rabs_mult, <- abs_IZR, (Rabs_pos_eq (bpow radix2 (- k))) by apply bpow_ge_0.
  apply IZR_le in B. rewrite IZR_Zpower in B by lia. replace (bpow radix2 3) with (bpow radix2 (k + 3) * bpow radix2 (- k)) by (rewrite <- bpow_plus; f_equal; ring). apply Rmult_le_compat_r; [apply bpow_ge_0|exact B].
Qed.
Definition exps p e (O : RealOps (binary_float p e)) (k : Z) : bool :=
  forallb (fun sn => match fst sn with Ret s =>
    forallb (fun w => match rgb_to_xyz_matrix w s, xyz_to_rgb_matrix w s with Ret A, Ret B => coefs p e k A && coefs p e k B | _, _ => false end) whites | _ => false end) spaces.
Lemma exps32 (L : libm f32) : exps 24 128 (f32_ops L) 60 = true. Proof. vm_compute. reflexivity. Qed.
Lemma exps64 (L : libm f64) : exps 53 1024 (f64_ops L) 480 = true. Proof. vm_compute. reflexivity. Qed.

(* brightening by 0 to K whole stops before the conversion or after it gives the same bits, for colours whose
   channels are 0 or of size 2^lo to 2^h *)
Definition keeps_stops p e {O : RealOps (binary_float p e)} (lo h top : Z) (w : xyy (binary_float p e)) (sp : color_space (binary_float p e)) : Prop :=
  exists A B, rgb_to_xyz_matrix w sp = Ret A /\ xyz_to_rgb_matrix w sp = Ret B /\ forall s k, is_finite s = true -> B2R s = bpow radix2 k -> (0 <= k <= top)%Z ->
    (forall c, ordinary p e lo h (rgb_r c) -> ordinary p e lo h (rgb_g c) -> ordinary p e lo h (rgb_b c) -> rgb_to_xyz A (rgb_mul_s c s) = xyz_mul_s (rgb_to_xyz A c) s) /\
    (forall c, ordinary p e lo h (xyz_x c) -> ordinary p e lo h (xyz_y c) -> ordinary p e lo h (xyz_z c) -> xyz_to_rgb B (xyz_mul_s c s) = rgb_mul_s (xyz_to_rgb B c) s).
Lemma from_exps p e {Hp : Prec_gt_0 p} {He : Prec_lt_emax p e} (L : libm (binary_float p e)) (lit : Q -> binary_float p e) q lo h top : is_finite (lit 100.0%Q) = true -> B2R (lit 100.0%Q) = 100 ->
  (0 <= q)%Z -> (0 <= h)%Z -> (2 - e <= - q + (lo - 7 + 1 - p))%Z -> (lo <= 0)%Z -> (2 - e <= lo - 7)%Z -> (3 + h + 9 + top < e)%Z -> exps p e (b_ops p e L lit) q = true ->
  forall on, In on (@spaces _ (b_ops p e L lit)) -> exists sp, fst on = Ret sp /\ forall w, In w (@whites _ (b_ops p e L lit)) -> @keeps_stops p e (b_ops p e L lit) lo h top w sp.
Proof.
  intros Fh Vh Q0 H0 PL LI LO HK C on I. unfold exps in C. rewrite forallb_forall in C. specialize (C _ I). destruct (fst on) as [sp| |]; try discriminate. exists sp. split; [reflexivity|]. intros w W. rewrite forallb_forall in C. specialize (C _ W).
  unfold keeps_stops. destruct (rgb_to_xyz_matrix w sp) as [A| |]; try discriminate. destruct (xyz_to_rgb_matrix w sp) as [B| |]; try discriminate. apply andb_true_iff in C. destruct C as (CA & CB). apply coefs_spec in CA, CB; try exact Q0.
  exists A, B. split; [reflexivity|]. split; [reflexivity|]. intros s k Fs Vs Hk. split; intros c X Y Z.
  - apply (scale_rgb p e s k Fs Vs (proj1 Hk) (lit 100.0%Q) Fh Vh L lit eq_refl (- q) 3 lo h); try assumption; lia.
  - apply (scale_xyz p e s k Fs Vs (proj1 Hk) (lit 100.0%Q) Vh L lit eq_refl (- q) 3 lo h); try assumption; lia.
Qed.
Theorem C124_f32 (L : libm f32) : forall on, In on (@spaces _ (f32_ops L)) -> exists sp, fst on = Ret sp /\ forall w, In w (@whites _ (f32_ops L)) -> @keeps_stops 24 128 (f32_ops L) (-36) 50 60 w sp.
Proof.
  apply (from_exps 24 128 L _ 60); [reflexivity| |lia..|exact (exps32 L)]. rewrite <- SF2R_B2SF. change (B2SF (f64_to_f32 (b_of_Q 53 1024 100.0))) with (SpecFloat.S754_finite false 13107200 (-17)).
  unfold SF2R, F2R. cbn [Fnum Fexp cond_Zopp]. change (bpow radix2 (-17)) with (/ 131072). lra.
Qed.
Theorem C124_f64 (L : libm f64) : forall on, In on (@spaces _ (f64_ops L)) -> exists sp, fst on = Ret sp /\ forall w, In w (@whites _ (f64_ops L)) -> @keeps_stops 53 1024 (f64_ops L) (-480) 480 480 w sp.
Proof. apply (from_exps 53 1024 L _ 480); [reflexivity| |lia..|exact (exps64 L)]. apply (b_of_Q_int 53 1024 100.0 100); [q2r; lra|cbn; lia]. Qed.

(* the lower limit is needed: the smallest red is lost before it is doubled *)
Theorem C124_tiny_refuted (L : libm f32) : exists A c s, @rgb_to_xyz_matrix _ (f32_ops L) (@xy_D65 _ (f32_ops L)) (@SRGB _ (f32_ops L)) = Ret A /\ is_finite (rgb_r c) = true /\ is_finite (rgb_g c) = true /\ is_finite (rgb_b c) = true /\ B2R s = bpow radix2 1 /\
  @rgb_to_xyz _ (f32_ops L) A (@rgb_mul_s _ (f32_ops L) c s) <> @xyz_mul_s _ (f32_ops L) (@rgb_to_xyz _ (f32_ops L) A c) s.
Proof.
  set (tiny := @B754_finite 24 128 false 1 (-149) eq_refl). set (c := Rgb tiny (B754_zero false : f32) (B754_zero false : f32)). set (s := b_of_Z 24 128 2).
  assert (C : match @rgb_to_xyz_matrix _ (f32_ops L) (@xy_D65 _ (f32_ops L)) (@SRGB _ (f32_ops L)) with Ret A => negb (Beqb (xyz_x (@rgb_to_xyz _ (f32_ops L) A (@rgb_mul_s _ (f32_ops L) c s))) (xyz_x (@xyz_mul_s _ (f32_ops L) (@rgb_to_xyz _ (f32_ops L) A c) s))) && Beqb (xyz_x (@xyz_mul_s _ (f32_ops L) (@rgb_to_xyz _ (f32_ops L) A c) s)) (B754_zero false) | _ => false end = true) by (vm_compute; reflexivity).
  destruct (@rgb_to_xyz_matrix _ (f32_ops L) (@xy_D65 _ (f32_ops L)) (@SRGB _ (f32_ops L))) as [A| |]; try discriminate C. exists A, c, s.
  split; [reflexivity|]. split; [reflexivity|]. split; [reflexivity|]. split; [reflexivity|]. split; [destruct (b_of_Z_exact 24 128 2 ltac:(cbn; lia)) as (V & _); exact V|].
  intro E. rewrite E in C. apply andb_true_iff in C. destruct C as (C1 & C2). destruct (xyz_x _) as [b|b| |b m e B] in C1, C2; destruct b || idtac; cbn in C1, C2; discriminate.
Qed.

(* a colour outside the gamut, three stops brighter, into XYZ under D50 and in f32 *)
Example C124_example (L : libm f32) : let z n := b_of_Z 24 128 n in exists s A, @ITUR_BT2020 _ (f32_ops L) = Ret s /\ @rgb_to_xyz_matrix _ (f32_ops L) (@xy_D50 _ (f32_ops L)) s = Ret A /\
  @rgb_to_xyz _ (f32_ops L) A (@rgb_mul_s _ (f32_ops L) (Rgb (z 16%Z) (z (-3)%Z) (z 0%Z)) (z 8%Z)) = @xyz_mul_s _ (f32_ops L) (@rgb_to_xyz _ (f32_ops L) A (Rgb (z 16%Z) (z (-3)%Z) (z 0%Z))) (z 8%Z).
Proof.
  cbv zeta. destruct (C124_f32 L (@ITUR_BT2020 _ (f32_ops L), 65535%Z) ltac:(cbn [In spaces]; auto 12)) as (s & E & G). cbn [fst] in E. destruct (G (@xy_D50 _ (f32_ops L)) ltac:(left; reflexivity)) as (A & B & EA & _ & T). clear G. exists s, A. split; [exact E|]. split; [exact EA|].
  assert (V : forall n, (Z.abs n <= 16)%Z -> is_finite (b_of_Z 24 128 n) = true /\ B2R (b_of_Z 24 128 n) = IZR n). { intros n Hn. destruct (b_of_Z_exact 24 128 n ltac:(change (2 ^ 24)%Z with 16777216%Z; lia)) as (V1 & V2 & _). split; [exact V2|exact V1]. }
  destruct (V 8%Z ltac:(lia)) as (F8 & V8). destruct (T (b_of_Z 24 128 8) 3%Z F8 V8 ltac:(lia)) as (T1 & _).
  assert (OR : forall n, (Z.abs n <= 16)%Z -> ordinary 24 128 (-36) 50 (b_of_Z 24 128 n)).
  { intros n Hn. destruct (V n Hn) as (F & W). split; [exact F|]. rewrite W, <- abs_IZR. split.
    - destruct (Z.eq_dec n 0) as [->|N]; [left; reflexivity|right]. apply Rle_trans with 1; [change 1 with (bpow radix2 0); apply bpow_le; lia|]. apply IZR_le. lia.
    - apply Rle_trans with (bpow radix2 4); [|apply bpow_le; lia]. change (bpow radix2 4) with 16. apply IZR_le. exact Hn. }
  apply T1; apply OR; lia.
Qed.
