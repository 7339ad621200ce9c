(* C126: chromatic adaptation in floating point depends on the two whites only up to a common power of two *)
From Coq Require Import Reals ZArith QArith Qreals Lra Lia Bool List.
From Flocq Require Import Core BinarySingleNaN.
From Verif Require Import Outcome RealOps MathModel ColorModel AdaptModel XReal FloatInst FloatProofs ErrProofs PropPixel PropStops PropStopsLab.
Open Scope R_scope.

Section Cat.
Context (prec emax : Z) {Hp : Prec_gt_0 prec} {He : Prec_lt_emax prec emax}.
Notation fl := (binary_float prec emax).
Notation bp := (bpow radix2).
Lemma sc_eqb k x x' y y' : sc prec emax k x x' -> sc prec emax k y y' -> Beqb x' y' = Beqb x y.
Proof.
  intros (FX & FX' & _ & VX) (FY & FY' & _ & VY). rewrite !Beqb_correct by assumption. rewrite VX, VY. pose proof (bpow_gt_0 radix2 k) as P.
  destruct (Req_dec (B2R x) (B2R y)) as [E|N]; [rewrite E, !Req_bool_true by reflexivity; reflexivity|].
  rewrite !Req_bool_false; [reflexivity|exact N|]. intro E. apply N. apply Rmult_eq_reg_l in E; lra.
Qed.

Context (s : fl) (k : Z) (Fs : is_finite s = true) (Vs : B2R s = bp k) (K0 : (0 <= k)%Z).
Context (L : libm fl) (lit : Q -> fl).
Notation ops := (b_ops prec emax L lit).
Context (q lo h : Z) (Q0 : (0 <= q)%Z) (H0 : (0 <= h)%Z) (LO : (2 - emax <= - q + (lo + 1 - prec))%Z) (HK : (3 + h + 2 + k < emax)%Z).
Notation three := (ordinary3 prec emax lo h).
Lemma lo_ok : (2 - emax <= lo)%Z. Proof. assert (0 < prec)%Z by exact Hp. lia. Qed.
Lemma eqb_stops a b : three a -> three b -> @xyz_eqb _ ops (@xyz_mul_s _ ops a s) (@xyz_mul_s _ ops b s) = @xyz_eqb _ ops a b.
Proof.
  intros (A1 & A2 & A3) (B1 & B2 & B3). pose proof lo_ok as LK. assert (D : forall x, ordinary prec emax lo h x -> sc prec emax k x (Bmult mode_NE x s)) by (intros x O; apply (sc_by prec emax s k Fs Vs K0 lo h); (assumption || lia)).
  unfold xyz_eqb, xyz_mul_s. cbn [xyz_x xyz_y xyz_z]. f_equal; [f_equal|]; apply (sc_eqb k); apply D; assumption.
Qed.
Lemma apply_stops M N a b : coefs prec emax q M = true -> three a -> three b -> @cat_apply _ ops M N (@xyz_mul_s _ ops a s) (@xyz_mul_s _ ops b s) = @cat_apply _ ops M N a b.
Proof.
  intros C A B. apply coefs_spec in C; [|exact Q0]. destruct (mcoef_inv _ _ _ _ _ C) as ((M0 & M1 & M2) & (M3 & M4 & M5) & M6 & M7 & M8). pose proof lo_ok as LK.
  assert (D : forall x y z c, three c -> coef prec emax (- q) 3 x -> coef prec emax (- q) 3 y -> coef prec emax (- q) 3 z ->
    sc prec emax k (fdot prec emax x y z (xyz_x c) (xyz_y c) (xyz_z c)) (fdot prec emax x y z (Bmult mode_NE (xyz_x c) s) (Bmult mode_NE (xyz_y c) s) (Bmult mode_NE (xyz_z c) s))).
  { intros x y z c (C1 & C2 & C3) X Y Z. eapply st_sc. apply (st_dot prec emax k (lo + 1 - prec) h (- q) 3); try assumption; try lia; apply (st_in prec emax s k Fs Vs K0 lo h); (assumption || lia). }
  unfold cat_apply. f_equal. f_equal. unfold mat_mul_xyz, xyz_mul_s. cbn [xyz_x xyz_y xyz_z]. f_equal; apply (sc_div prec emax k); apply D; assumption.
Qed.
Lemma bradford_stops a b : coefs prec emax q (@bradford_M _ ops) = true -> three a -> three b -> @bradford _ ops (@xyz_mul_s _ ops a s) (@xyz_mul_s _ ops b s) = @bradford _ ops a b.
Proof. intros C A B. unfold bradford. rewrite eqb_stops by assumption. destruct (xyz_eqb a b); [reflexivity|]. destruct (unwrap (mat_inverse bradford_M)) as [N| |]; try reflexivity. cbn [obind]. rewrite apply_stops by assumption. reflexivity. Qed.
Lemma cat02_stops a b : coefs prec emax q (@cat02_M _ ops) = true -> three a -> three b -> @cat02 _ ops (@xyz_mul_s _ ops a s) (@xyz_mul_s _ ops b s) = @cat02 _ ops a b.
Proof. intros C A B. unfold cat02. rewrite eqb_stops by assumption. destruct (xyz_eqb a b); [reflexivity|]. destruct (unwrap (mat_inverse cat02_M)) as [N| |]; try reflexivity. cbn [obind]. rewrite apply_stops by assumption. reflexivity. Qed.
Lemma von_kries_stops a b : coefs prec emax q (@von_kries_M _ ops) = true -> three a -> three b -> @von_kries _ ops (@xyz_mul_s _ ops a s) (@xyz_mul_s _ ops b s) = @von_kries _ ops a b.
Proof. intros C A B. unfold von_kries. rewrite eqb_stops by assumption. destruct (xyz_eqb a b); [reflexivity|]. apply apply_stops; assumption. Qed.
End Cat.

(* both whites times 2^k: the same matrix, or the same panic *)
Theorem C126_f32 (L : libm f32) s k a b : is_finite s = true -> B2R s = bpow radix2 k -> (0 <= k <= 60)%Z -> ordinary3 24 128 (-60) 60 a -> ordinary3 24 128 (-60) 60 b ->
  let a' := @xyz_mul_s _ (f32_ops L) a s in let b' := @xyz_mul_s _ (f32_ops L) b s in
  @bradford _ (f32_ops L) a' b' = @bradford _ (f32_ops L) a b /\ @cat02 _ (f32_ops L) a' b' = @cat02 _ (f32_ops L) a b /\ @von_kries _ (f32_ops L) a' b' = @von_kries _ (f32_ops L) a b.
Proof.
  intros F V K A B a' b'. unfold a', b', f32_ops.
  split; [|split]; [apply (bradford_stops 24 128 s k F V ltac:(lia) L _ 40 (-60) 60)|apply (cat02_stops 24 128 s k F V ltac:(lia) L _ 40 (-60) 60)|apply (von_kries_stops 24 128 s k F V ltac:(lia) L _ 40 (-60) 60)]; try assumption; try lia; vm_compute; reflexivity.
Qed.
Theorem C126_f64 (L : libm f64) s k a b : is_finite s = true -> B2R s = bpow radix2 k -> (0 <= k <= 500)%Z -> ordinary3 53 1024 (-800) 500 a -> ordinary3 53 1024 (-800) 500 b ->
  let a' := @xyz_mul_s _ (f64_ops L) a s in let b' := @xyz_mul_s _ (f64_ops L) b s in
  @bradford _ (f64_ops L) a' b' = @bradford _ (f64_ops L) a b /\ @cat02 _ (f64_ops L) a' b' = @cat02 _ (f64_ops L) a b /\ @von_kries _ (f64_ops L) a' b' = @von_kries _ (f64_ops L) a b.
Proof.
  intros F V K A B a' b'. unfold a', b', f64_ops.
  split; [|split]; [apply (bradford_stops 53 1024 s k F V ltac:(lia) L _ 100 (-800) 500)|apply (cat02_stops 53 1024 s k F V ltac:(lia) L _ 100 (-800) 500)|apply (von_kries_stops 53 1024 s k F V ltac:(lia) L _ 100 (-800) 500)]; try assumption; try lia; vm_compute; reflexivity.
Qed.

(* whites (96, 100, 82) and (94, 100, 108) against half of each *)
Example C126_example (L : libm f32) : let z n := b_of_Z 24 128 n in
  @bradford _ (f32_ops L) (Xyz (z 96%Z) (z 100%Z) (z 82%Z)) (Xyz (z 94%Z) (z 100%Z) (z 108%Z)) = @bradford _ (f32_ops L) (Xyz (z 48%Z) (z 50%Z) (z 41%Z)) (Xyz (z 47%Z) (z 50%Z) (z 54%Z)).
Proof.
  cbv zeta. assert (V : forall n, (Z.abs n <= 128)%Z -> is_finite (b_of_Z 24 128 n) = true /\ B2R (b_of_Z 24 128 n) = IZR n). { intros n Hn. destruct (b_of_Z_exact 24 128 n ltac:(change (2 ^ 24)%Z with 16777216%Z; lia)) as (V1 & V2 & _). split; [exact V2|exact V1]. }
  assert (OR : forall n, (Z.abs n <= 128)%Z -> ordinary 24 128 (-60) 60 (b_of_Z 24 128 n)).
  { intros n Hn. destruct (V n Hn) as (F & W). split; [exact F|]. rewrite W, <- abs_IZR. split.
    - destruct (Z.eq_dec n 0) as [->|N]; [left; reflexivity|right]. apply Rle_trans with 1; [change 1 with (bpow radix2 0); apply bpow_le; lia|]. apply IZR_le. lia.
    - apply Rle_trans with (bpow radix2 7); [|apply bpow_le; lia]. change (bpow radix2 7) with 128. apply IZR_le. exact Hn. }
  destruct (V 2%Z ltac:(lia)) as (F2 & V2).
  destruct (C126_f32 L (b_of_Z 24 128 2) 1 (Xyz (b_of_Z 24 128 48) (b_of_Z 24 128 50) (b_of_Z 24 128 41)) (Xyz (b_of_Z 24 128 47) (b_of_Z 24 128 50) (b_of_Z 24 128 54)) F2 V2 ltac:(lia)) as (A & _); [split; [|split]; apply OR; cbn; lia..|].
  rewrite <- A. f_equal; unfold xyz_mul_s; cbn [xyz_x xyz_y xyz_z]; f_equal; apply B2SF_inj; vm_compute; reflexivity.
Qed.
