(* C72, C73, C74: rounding in matrix application, lerp, and narrowing to 32 bits *)
From Coq Require Import Reals ZArith QArith Qreals Lra Lia Bool List.
From Flocq Require Import Core BinarySingleNaN.
From Verif Require Import Outcome RealOps MathModel ColorModel XReal SpecLin FloatInst FloatProofs ErrProofs.
Open Scope R_scope.

(* ---- C72 ---- *)
Section M.
Context (prec emax : Z) {Hp : Prec_gt_0 prec} {He : Prec_lt_emax prec emax}.
Notation fl := (binary_float prec emax).
(* [r] is a x + b y + c z up to four roundings of the absolute products and of the smallest
   subnormals, if it is finite at all; it is when the operands are and nothing comes near overflow *)
Definition near_dot (r a b c x y z : fl) : Prop :=
  let s := Rabs (B2R a * B2R x) + Rabs (B2R b * B2R y) + Rabs (B2R c * B2R z) in
  (is_finite r = true -> Rabs (B2R r - (B2R a * B2R x + B2R b * B2R y + B2R c * B2R z)) <= 4 * bpow radix2 (- prec) * s + 4 * bpow radix2 (2 - emax - prec))
  /\ (is_finite a && is_finite b && is_finite c && is_finite x && is_finite y && is_finite z = true -> s <= bpow radix2 (emax - 1) -> is_finite r = true).
Definition near_product (m : mat33 fl) (x y z x' y' z' : fl) : Prop :=
  near_dot x' (mx0 m) (mx1 m) (mx2 m) x y z /\ near_dot y' (mx3 m) (mx4 m) (mx5 m) x y z /\ near_dot z' (mx6 m) (mx7 m) (mx8 m) x y z.
Lemma near (a b c x y z : fl) : (5 <= prec)%Z -> near_dot (fdot prec emax a b c x y z) a b c x y z.
Proof.
  intro P. split; [apply fdot_err, P|]. intros F S. rewrite !andb_true_iff in F. destruct F as (((((Fa & Fb) & Fc) & Fx) & Fy) & Fz). apply fdot_finite; assumption.
Qed.
End M.
Theorem C72_matrix_rounding (L : libm f64) (L' : libm f32) :
  (forall m (c : xyz f64), let r := @mat_mul_xyz _ (f64_ops L) m c in near_product 53 1024 m (xyz_x c) (xyz_y c) (xyz_z c) (xyz_x r) (xyz_y r) (xyz_z r))
  /\ (forall m (c : xyz f32), let r := @mat_mul_xyz _ (f32_ops L') m c in near_product 24 128 m (xyz_x c) (xyz_y c) (xyz_z c) (xyz_x r) (xyz_y r) (xyz_z r))
  /\ (forall m (c : rgbf f64), let r := @mat_mul_rgb _ (f64_ops L) m c in near_product 53 1024 m (rgb_r c) (rgb_g c) (rgb_b c) (rgb_r r) (rgb_g r) (rgb_b r))
  /\ (forall m (c : rgbf f32), let r := @mat_mul_rgb _ (f32_ops L') m c in near_product 24 128 m (rgb_r c) (rgb_g c) (rgb_b c) (rgb_r r) (rgb_g r) (rgb_b r)).
Proof. repeat split; intros; apply near; try assumption; lia. Qed.
(* the rounding is there: 0.1 * 1 + 0.1 * 1 + 0.1 * 1 is finite and is not 0.3 in f64 *)
Example C72_example (L : libm f64) : let t := b_of_Q 53 1024 0.1 in let o := b_of_Q 53 1024 1.0 in
  let r := xyz_x (@mat_mul_xyz _ (f64_ops L) (Mat33 t t t o o o o o o) (Xyz o o o)) in is_finite r = true /\ Beqb r (b_of_Q 53 1024 0.3) = false.
Proof. split; reflexivity. Qed.

(* ---- C73 ---- *)
Lemma one32 (L : libm f32) : is_finite (@rlitd _ (f32_ops L) 1.0) = true /\ B2R (@rlitd _ (f32_ops L) 1.0) = 1.
Proof. cbn [rlitd f32_ops b_ops]. destruct (b_of_Q_int 24 128 1.0 1) as [A B]; [q2r; lra|cbn; lia|]. split; assumption. Qed.
Lemma same_nonzero p e (x y : binary_float p e) : is_finite x = true -> is_finite y = true -> B2R x = B2R y -> B2R y <> 0 -> x = y.
Proof.
  intros Fx Fy V N. apply B2R_Bsign_inj; try assumption. destruct x as [s|s| |s m e' B], y as [s'|s'| |s' m' e'' B']; try discriminate; try (exfalso; apply N; reflexivity); try (exfalso; apply N; rewrite <- V; reflexivity).
  cbn [Bsign B2R] in *. destruct s, s'; try reflexivity; cbn [cond_Zopp] in V; exfalso.
  - pose proof (F2R_lt_0 radix2 (Float radix2 (Z.neg m) e') eq_refl). pose proof (F2R_gt_0 radix2 (Float radix2 (Z.pos m') e'') eq_refl). cbn [Z.opp] in V. lra.
  - pose proof (F2R_lt_0 radix2 (Float radix2 (Z.neg m') e'') eq_refl). pose proof (F2R_gt_0 radix2 (Float radix2 (Z.pos m) e') eq_refl). cbn [Z.opp] in V. lra.
Qed.
(* the end points, up to the sign of zero; t may be either zero *)
Theorem C73_lerp_ends (L : libm f32) (a b t : f32) : is_finite a = true -> is_finite b = true -> is_finite t = true ->
  let r := @lerp _ (f32_ops L) a b t in
  (B2R t = 0 -> Beqb r a = true /\ (B2R a <> 0 -> r = a)) /\ (B2R t = 1 -> Beqb r b = true /\ (B2R b <> 0 -> r = b)).
Proof.
  intros Fa Fb Ft r. destruct (one32 L) as [F1 O]. destruct (flerp_ends 24 128 _ a b t F1 O Fa Fb Ft) as [E0 E1].
  change (flerp 24 128 (@rlitd _ (f32_ops L) 1.0) a b t) with r in E0, E1.
  split; intro T; [destruct (E0 T) as [F V]|destruct (E1 T) as [F V]]; (split; [rewrite beqb_fin by assumption; apply Req_bool_true, V|intro N; apply same_nonzero; assumption]).
Qed.
Theorem C73_lerp_rounding (L : libm f32) (a b t : f32) : let r := @lerp _ (f32_ops L) a b t in is_finite r = true ->
  Rabs (B2R r - ((1 - B2R t) * B2R a + B2R t * B2R b)) <= 4 * bpow radix2 (-24) * (Rabs ((1 - B2R t) * B2R a) + Rabs (B2R t * B2R b)) + 4 * bpow radix2 (-150).
Proof. intros r F. destruct (one32 L) as [_ O]. apply (flerp_err 24 128 (@rlitd _ (f32_ops L) 1.0)); [lia|exact O|exact F]. Qed.
Theorem C73_lerp_between (K : XConst) a b t : 0 <= t <= 1 -> exists r, lerp (Fin a) (Fin b) (Fin t) = Fin r /\ Rmin a b <= r <= Rmax a b.
Proof.
  intro H. exists ((1 - t) * a + t * b). split.
  - unfold lerp. rewrite x_litd, x_sub, !x_mul, x_add. f_equal. assert (E : Q2R 1.0 = 1) by (clear; q2r; lra). rewrite E. reflexivity.
  - unfold Rmin, Rmax. destruct (Rle_dec a b); nra.
Qed.
(* the sign of zero is lost: lerp(-0, 1, 0) is +0 *)
Example C73_example (L : libm f32) : @lerp _ (f32_ops L) (B754_zero true) (@rlitd _ (f32_ops L) 1.0) (B754_zero false) = B754_zero false.
Proof. reflexivity. Qed.

(* ---- C74 ---- *)
Lemma narrow_mono (x y : f64) : Bleb x y = true -> Bleb (f64_to_f32 x) (f64_to_f32 y) = true.
Proof.
  intro H. apply leb_true in H. destruct H as (Nx & Ny & H). destruct (conv_ev 53 1024 24 128 x ltac:(lia) Nx) as [Ax Ex]. destruct (conv_ev 53 1024 24 128 y ltac:(lia) Ny) as [Ay Ey].
  apply (leb_intro 24 128); [exact Ax|exact Ay|]. unfold f64_to_f32. rewrite Ex, Ey. apply sat_mono, (rnd_le 24 128), H.
Qed.
Lemma widen (x : f32) : is_finite x = true -> is_finite (f32_to_f64 x) = true /\ B2R (f32_to_f64 x) = B2R x /\ Bsign (f32_to_f64 x) = Bsign x.
Proof.
  intro F. destruct x as [s|s| |s m e B]; try discriminate; [repeat split; reflexivity|].
  unfold f32_to_f64, b_conv. pose proof (binary_normalize_correct 53 1024 _ _ mode_NE (cond_Zopp s (Zpos m)) e s) as C. cbv zeta in C. cbn [round_mode] in C.
  change (F2R (Float radix2 (cond_Zopp s (Z.pos m)) e)) with (B2R (B754_finite s m e B : f32)) in C. set (x := B754_finite s m e B : f32) in *.
  assert (G : generic_format radix2 (SpecFloat.fexp 53 1024) (B2R x)).
  { eapply generic_inclusion_mag; [|apply (generic_format_B2R 24 128)]. intros _. unfold SpecFloat.fexp, SpecFloat.emin. lia. }
  rewrite round_generic in C by (auto with typeclass_instances). rewrite Rlt_bool_true in C by (eapply Rlt_trans; [apply (abs_B2R_lt_emax 24 128)|apply bpow_lt; reflexivity]).
  destruct C as (C1 & C2 & C3). repeat split; try assumption. rewrite C3. unfold x. cbn [B2R Bsign]. destruct s; cbn [cond_Zopp].
  - rewrite Rcompare_Lt; [reflexivity|]. apply F2R_lt_0. reflexivity.
  - rewrite Rcompare_Gt; [reflexivity|]. apply F2R_gt_0. reflexivity.
Qed.
Lemma widen_narrow (x : f32) : f64_to_f32 (f32_to_f64 x) = x.
Proof.
  destruct x as [s|s| |s m e B]; try reflexivity. set (x := B754_finite s m e B : f32). destruct (widen x eq_refl) as (A & B' & C). apply (conv_exact 53 1024 24 128); [exact A|reflexivity|exact B'|exact C].
Qed.
Definition channels_rgb {A} (c : rgbf A) := (rgb_r c :: rgb_g c :: rgb_b c :: nil)%list.
Definition channels_xyz {A} (c : xyz A) := (xyz_x c :: xyz_y c :: xyz_z c :: nil)%list.
(* channel by channel, infinities included; values that overflow become infinite *)
Theorem C74_narrow_monotone :
  (forall c d : rgbf f64, Forall2 (fun x y => Bleb x y = true) (channels_rgb c) (channels_rgb d) -> Forall2 (fun x y => Bleb x y = true) (channels_rgb (rgb_cast f64_to_f32 c)) (channels_rgb (rgb_cast f64_to_f32 d)))
  /\ (forall c d : xyz f64, Forall2 (fun x y => Bleb x y = true) (channels_xyz c) (channels_xyz d) -> Forall2 (fun x y => Bleb x y = true) (channels_xyz (xyz_cast f64_to_f32 c)) (channels_xyz (xyz_cast f64_to_f32 d)))
  /\ (forall m n : mat33 f64, Forall2 (fun x y => Bleb x y = true) (mat_list m) (mat_list n) -> Forall2 (fun x y => Bleb x y = true) (mat_list (mat_cast f64_to_f32 m)) (mat_list (mat_cast f64_to_f32 n))).
Proof.
  assert (M : forall l m, Forall2 (fun x y : f64 => Bleb x y = true) l m -> Forall2 (fun x y => Bleb x y = true) (List.map f64_to_f32 l) (List.map f64_to_f32 m)).
  { induction 1; constructor; [apply narrow_mono|]; assumption. }
  repeat split; intros c d H; apply M in H; exact H.
Qed.
Theorem C74_narrow_exact :
  (forall c : rgbf f32, rgb_cast f64_to_f32 (rgb_cast f32_to_f64 c) = c) /\ (forall c : xyz f32, xyz_cast f64_to_f32 (xyz_cast f32_to_f64 c) = c) /\ (forall m : mat33 f32, mat_cast f64_to_f32 (mat_cast f32_to_f64 m) = m).
Proof. repeat split; intros []; unfold rgb_cast, xyz_cast, mat_cast; cbn; rewrite !widen_narrow; reflexivity. Qed.
(* and every finite result is the nearest f32 *)
Theorem C74_narrow_nearest (x : f64) : is_finite x = true -> is_finite (f64_to_f32 x) = true -> forall y : f32, is_finite y = true -> Rabs (B2R (f64_to_f32 x) - B2R x) <= Rabs (B2R y - B2R x).
Proof.
  intros F F' y Fy. assert (Nx : is_nan x = false) by (destruct x; (discriminate || reflexivity)). destruct (conv_ev 53 1024 24 128 x ltac:(lia) Nx) as [_ E].
  change (b_conv 53 1024 24 128 x) with (f64_to_f32 x) in E. rewrite !ev_fin in E by assumption.
  assert (B : Rabs (B2R (f64_to_f32 x)) < bpow radix2 128) by apply abs_B2R_lt_emax.
  assert (V : B2R (f64_to_f32 x) = round radix2 (SpecFloat.fexp 24 128) ZnearestE (B2R x)).
  { rewrite E. apply sat_in. set (r := round _ _ _ _) in *. destruct (Rlt_or_le (Rabs r) (bpow radix2 128)) as [|H]; [assumption|]. exfalso. rewrite E in B. pose proof (bpow_gt_0 radix2 128).
    unfold Rabs in H. destruct (Rcase_abs r); [rewrite sat_low in B by lra; rewrite Rabs_left in B by lra; lra|rewrite sat_high in B by lra; rewrite Rabs_pos_eq in B by lra; lra]. }
  rewrite V. destruct (round_N_pt radix2 (SpecFloat.fexp 24 128) (fun x => negb (Z.even x)) (B2R x)) as [_ N]. apply N, generic_format_B2R.
Qed.
Example C74_example : f64_to_f32 (B754_infinity true) = B754_infinity true /\ f64_to_f32 (@Bmax_float 53 1024 _ _) = B754_infinity false.
Proof. split; reflexivity. Qed.
