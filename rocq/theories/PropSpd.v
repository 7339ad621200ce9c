(* C44-C47: the fixed-shape spectrum of spd.rs *)
From Coq Require Import Reals ZArith QArith Qreals Lra Lia List Bool.
From Flocq Require Import Core BinarySingleNaN.
From Verif Require Import Outcome RealOps MathModel ColorModel SpdModel DataSpd XReal SpecLin FloatInst VspdProofs.
Import ListNotations.
Open Scope R_scope.

Definition FinL (l : list R) : list xr := map Fin l.
(* the weight tables as reals, and as the model reads them *)
Definition WX : list R := map Q2R data_W_X.
Definition WY : list R := map Q2R data_W_Y.
Definition WZ : list R := map Q2R data_W_Z.

Section P.
Context {K : XConst}.
Definition to_xyz_scalar (v : list R) : xyz xr :=
  spd_to_xyz_scalar (map rlitd data_W_X) (map rlitd data_W_Y) (map rlitd data_W_Z) (FinL v).
Definition to_xyz_avx (v : list R) : xyz xr :=
  spd_to_xyz_avx (map rlitd data_W_X) (map rlitd data_W_Y) (map rlitd data_W_Z) (FinL v).

Lemma tables_fin l : map (rlitd : Q -> xr) l = FinL (map Q2R l).
Proof. unfold FinL. rewrite map_map. reflexivity. Qed.

(* exact arithmetic leaves nothing to compensate *)
Lemma kahan_exact terms : forall a b c, fold_left kahan_step (map FinXyz terms) (FinXyz (a, b, c), FinXyz (0, 0, 0))
  = (FinXyz (fold_left vadd terms (a, b, c)), FinXyz (0, 0, 0)).
Proof.
  induction terms as [|[[x y] z] l IH]; intros a b c; [reflexivity|]. cbn [map fold_left].
  assert (E : kahan_step (FinXyz (a, b, c), FinXyz (0, 0, 0)) (FinXyz (x, y, z)) = (FinXyz (vadd (a, b, c) (x, y, z)), FinXyz (0, 0, 0))).
  { unfold kahan_step, FinXyz, xyz_sub, xyz_add, vadd. cbn [xyz_x xyz_y xyz_z]. xs. f_equal; f_equal; apply (f_equal Fin); ring. }
  rewrite E. cbn [vadd]. apply IH.
Qed.

Lemma scalar_exact : forall v wx wy wz, length wx = length v -> length wy = length v -> length wz = length v ->
  spd_to_xyz_scalar (FinL wx) (FinL wy) (FinL wz) (FinL v) = FinXyz (dotp v wx, dotp v wy, dotp v wz).
Proof.
  intros v wx wy wz Hx Hy Hz. unfold spd_to_xyz_scalar.
  assert (Z : Xyz (rlitd 0.0) (rlitd 0.0) (rlitd 0.0) = FinXyz (0, 0, 0)).
  { unfold FinXyz. xs. f_equal; apply (f_equal Fin); q2r; lra. }
  rewrite Z. set (terms := map _ _).
  assert (T : exists ts, terms = map FinXyz ts /\ forall a b c, fold_left vadd ts (a, b, c) = vadd (a, b, c) (dotp v wx, dotp v wy, dotp v wz)).
  { unfold terms. clear terms Z. revert wx wy wz Hx Hy Hz. induction v as [|s v IH]; intros [|x wx] [|y wy] [|z wz] Hx Hy Hz; try discriminate.
    - exists []. split; [reflexivity|]. intros. cbn. vec_ring.
    - injection Hx as Hx. injection Hy as Hy. injection Hz as Hz. destruct (IH wx wy wz Hx Hy Hz) as (ts & E & F).
      exists ((s * x, s * y, s * z) :: ts). split.
      + cbn [FinL map combine]. cbn [FinL] in E. fold (FinL v) (FinL wx) (FinL wy) (FinL wz). rewrite E. reflexivity.
      + intros a b c. cbn [fold_left vadd dotp]. rewrite F. cbn. vec_ring. }
  destruct T as (ts & E & F). rewrite E, kahan_exact. cbn [fst]. f_equal. rewrite F. cbn. vec_ring.
Qed.

Lemma table_lengths : length WX = 40%nat /\ length WY = 40%nat /\ length WZ = 40%nat.
Proof. repeat split. Qed.

(* ---- C44 ---- *)
Theorem C44_fast_conversion_is_weighted_sum : forall v : list R, length v = spd_samples ->
  to_xyz_scalar v = FinXyz (dotp v WX, dotp v WY, dotp v WZ).
Proof.
  intros v H. destruct table_lengths as (Lx & Ly & Lz). unfold to_xyz_scalar. rewrite !tables_fin.
  unfold spd_samples in H. apply scalar_exact; congruence.
Qed.

(* hence linear *)
Fixpoint ladd (a b : list R) : list R :=
  match a, b with x :: a', y :: b' => x + y :: ladd a' b' | _, _ => [] end.
Lemma ladd_length a : forall b, length a = length b -> length (ladd a b) = length a.
Proof. induction a; intros [|y b] H; try discriminate; cbn; [reflexivity|]. f_equal. apply IHa. now injection H. Qed.
Lemma dotp_add a : forall b w, length a = length b -> dotp (ladd a b) w = dotp a w + dotp b w.
Proof.
  induction a as [|x a IH]; intros [|y b] [|z w] H; try discriminate; cbn; try ring.
  rewrite IH by now injection H. ring.
Qed.
Lemma dotp_scale k a : forall w, dotp (map (Rmult k) a) w = k * dotp a w.
Proof. induction a as [|x a IH]; intros [|z w]; cbn; try ring. rewrite IH. ring. Qed.
Theorem C44_fast_conversion_linear : forall (a b : list R) (k : R), length a = spd_samples -> length b = spd_samples ->
  to_xyz_scalar (ladd a b) = xyz_add (to_xyz_scalar a) (to_xyz_scalar b)
  /\ to_xyz_scalar (map (Rmult k) a) = xyz_mul_s (to_xyz_scalar a) (Fin k).
Proof.
  intros a b k Ha Hb. rewrite !C44_fast_conversion_is_weighted_sum; try assumption.
  - rewrite !dotp_add, !dotp_scale by congruence. split; unfold FinXyz, xyz_add, xyz_mul_s; cbn [xyz_x xyz_y xyz_z]; xs;
      f_equal; apply (f_equal Fin); ring.
  - rewrite map_length. exact Ha.
  - rewrite ladd_length; congruence.
Qed.
(* each sample enters with its own weight *)
Definition spike (n i : nat) (x : R) : list R := repeat 0 i ++ x :: repeat 0 (n - i - 1).
Lemma dotp_repeat0 n : forall w, dotp (repeat 0 n) w = 0.
Proof. induction n; intros [|z w]; cbn; try reflexivity. rewrite IHn. ring. Qed.
Lemma dotp_spike i : forall n x w, (i < n)%nat -> dotp (spike n i x) w = x * nth i w 0.
Proof.
  induction i as [|i IH]; intros n x [|z w] H; unfold spike; cbn; try ring.
  - rewrite dotp_repeat0. ring.
  - destruct n as [|n]; [lia|]. specialize (IH n x w ltac:(lia)). unfold spike in IH. cbn [Nat.sub]. rewrite IH. ring.
Qed.
Theorem C44_spike : forall (i : nat) (x : R), (i < 40)%nat ->
  to_xyz_scalar (spike 40 i x) = FinXyz (x * nth i WX 0, x * nth i WY 0, x * nth i WZ 0).
Proof.
  intros i x H. rewrite C44_fast_conversion_is_weighted_sum.
  - rewrite !dotp_spike by exact H. reflexivity.
  - unfold spike. rewrite app_length. cbn [length]. rewrite !repeat_length. unfold spd_samples. lia.
Qed.

Example C44_example : exists y z, to_xyz_scalar (spike 40 3 2) = FinXyz (0.752829716965265793859884, y, z).
Proof. rewrite C44_spike by lia. do 2 eexists. cbn. repeat f_equal. q2r. lra. Qed.

(* ---- C45 ---- *)
Lemma forty {A} (l : list A) : length l = 40%nat -> exists
  a0 a1 a2 a3 a4 a5 a6 a7 a8 a9 b0 b1 b2 b3 b4 b5 b6 b7 b8 b9 c0 c1 c2 c3 c4 c5 c6 c7 c8 c9 d0 d1 d2 d3 d4 d5 d6 d7 d8 d9,
  l = [a0; a1; a2; a3; a4; a5; a6; a7; a8; a9; b0; b1; b2; b3; b4; b5; b6; b7; b8; b9;
       c0; c1; c2; c3; c4; c5; c6; c7; c8; c9; d0; d1; d2; d3; d4; d5; d6; d7; d8; d9].
Proof.
  intro H. do 40 (destruct l as [|? l]; [discriminate|]). destruct l; [|discriminate].
  repeat eexists.
Qed.
Lemma avx_exact v w : length v = 40%nat -> length w = 40%nat -> avx_channel (FinL w) (FinL v) = Fin (dotp v w).
Proof.
  intros Hv Hw. destruct (forty v Hv) as (a0 & a1 & a2 & a3 & a4 & a5 & a6 & a7 & a8 & a9 & b0 & b1 & b2 & b3 & b4 & b5 & b6 & b7 & b8 & b9 &
    c0 & c1 & c2 & c3 & c4 & c5 & c6 & c7 & c8 & c9 & d0 & d1 & d2 & d3 & d4 & d5 & d6 & d7 & d8 & d9 & ->).
  destruct (forty w Hw) as (a0' & a1' & a2' & a3' & a4' & a5' & a6' & a7' & a8' & a9' & b0' & b1' & b2' & b3' & b4' & b5' & b6' & b7' & b8' & b9' &
    c0' & c1' & c2' & c3' & c4' & c5' & c6' & c7' & c8' & c9' & d0' & d1' & d2' & d3' & d4' & d5' & d6' & d7' & d8' & d9' & ->).
  clear. cbn. apply (f_equal Fin). ring.
Qed.
Theorem C45_avx_equals_scalar : forall (v wx wy wz : list R), length v = 40%nat ->
  length wx = 40%nat -> length wy = 40%nat -> length wz = 40%nat ->
  spd_to_xyz_avx (FinL wx) (FinL wy) (FinL wz) (FinL v) = spd_to_xyz_scalar (FinL wx) (FinL wy) (FinL wz) (FinL v)
  /\ to_xyz_avx v = to_xyz_scalar v.
Proof.
  assert (G : forall (v wx wy wz : list R), length v = 40%nat -> length wx = 40%nat -> length wy = 40%nat -> length wz = 40%nat ->
    spd_to_xyz_avx (FinL wx) (FinL wy) (FinL wz) (FinL v) = spd_to_xyz_scalar (FinL wx) (FinL wy) (FinL wz) (FinL v)).
  { intros v wx wy wz Hv Hx Hy Hz. rewrite scalar_exact by congruence. unfold spd_to_xyz_avx. rewrite !avx_exact by assumption. reflexivity. }
  intros v wx wy wz Hv Hx Hy Hz. split; [apply G; assumption|].
  unfold to_xyz_avx, to_xyz_scalar. rewrite !tables_fin. apply G; [exact Hv| apply table_lengths..].
Qed.

(* ---- C46 ---- *)
Lemma dotp_nonneg v : forall w, Forall (fun x => 0 <= x) v -> Forall (fun x => 0 <= x) w -> 0 <= dotp v w.
Proof.
  induction v as [|x v IH]; intros [|y w] Hv Hw; cbn; try lra.
  inversion Hv; inversion Hw; subst. specialize (IH w ltac:(assumption) ltac:(assumption)).
  assert (0 <= x * y) by (apply Rmult_le_pos; assumption). lra.
Qed.
Lemma Qnonneg_table l : forallb (fun q => Z.leb 0 (Qnum q)) l = true -> Forall (fun x => 0 <= x) (map Q2R l).
Proof.
  intro H. rewrite forallb_forall in H. apply Forall_forall. intros x Hx. apply in_map_iff in Hx as (q & <- & Hq).
  specialize (H q Hq). apply Z.leb_le in H. unfold Q2R. apply Rmult_le_pos; [apply IZR_le; exact H|].
  left. apply Rinv_0_lt_compat, IZR_lt. reflexivity.
Qed.
Lemma WX_nonneg : Forall (fun x => 0 <= x) WX. Proof. apply Qnonneg_table. reflexivity. Qed.
Lemma WY_nonneg : Forall (fun x => 0 <= x) WY. Proof. apply Qnonneg_table. reflexivity. Qed.

(* W_Z is nonnegative except for its entry 28 (660 nm) *)
Definition wz28 : R := nth 28 WZ 0.
Lemma wz28_val : -0.000003 < wz28 < 0.
Proof. unfold wz28, WZ. cbn. q2r. lra. Qed.
Lemma dotp_split v w i : (i < length v)%nat -> length v = length w ->
  dotp v w = nth i v 0 * nth i w 0 + dotp (firstn i v) (firstn i w) + dotp (skipn (S i) v) (skipn (S i) w).
Proof.
  revert v w. induction i as [|i IH]; intros [|x v] [|y w] H L; cbn in *; try lia; try discriminate.
  - ring.
  - rewrite (IH v w) by lia. cbn. destruct v, w; cbn; ring.
Qed.
Theorem C46_nonnegative_partial : forall v : list R, length v = 40%nat -> Forall (fun x => 0 <= x) v ->
  exists x y z : R, to_xyz_scalar v = FinXyz (x, y, z) /\ to_xyz_avx v = FinXyz (x, y, z)
    /\ 0 <= x /\ 0 <= y /\ -0.000003 * nth 28 v 0 <= z /\ (nth 28 v 0 = 0 -> 0 <= z).
Proof.
  intros v L P. exists (dotp v WX), (dotp v WY), (dotp v WZ).
  destruct table_lengths as (Lx & Ly & Lz).
  destruct (C45_avx_equals_scalar v WX WY WZ L Lx Ly Lz) as [_ E]. rewrite E, C44_fast_conversion_is_weighted_sum by exact L.
  split; [reflexivity|]. split; [reflexivity|].
  split; [apply dotp_nonneg; [exact P|apply WX_nonneg]|]. split; [apply dotp_nonneg; [exact P|apply WY_nonneg]|].
  rewrite (dotp_split v WZ 28) by (rewrite ?L; lia || congruence).
  assert (A : 0 <= dotp (firstn 28 v) (firstn 28 WZ)).
  { apply dotp_nonneg.
    - apply Forall_forall. intros x Hx. rewrite Forall_forall in P. apply P. rewrite <- (firstn_skipn 28 v). apply in_or_app. now left.
    - unfold WZ. rewrite firstn_map. apply Qnonneg_table. reflexivity. }
  assert (B : 0 <= dotp (skipn 29 v) (skipn 29 WZ)).
  { apply dotp_nonneg.
    - apply Forall_forall. intros x Hx. rewrite Forall_forall in P. apply P. rewrite <- (firstn_skipn 29 v). apply in_or_app. now right.
    - unfold WZ. rewrite skipn_map. apply Qnonneg_table. reflexivity. }
  pose proof wz28_val as W. unfold wz28 in W.
  assert (N : 0 <= nth 28 v 0).
  { rewrite Forall_forall in P. apply P, nth_In. lia. }
  split; [nra|]. intros ->. lra.
Qed.
(* light at 660 nm alone has negative Z *)
Theorem C46_nonnegative_refuted : exists v : list R, length v = 40%nat /\ Forall (fun x => 0 <= x) v
  /\ exists x y z : R, to_xyz_scalar v = FinXyz (x, y, z) /\ z < 0.
Proof.
  exists (spike 40 28 1). split; [reflexivity|]. split.
  - unfold spike. apply Forall_app. split; [|constructor; [lra|]]; apply Forall_forall; intros x Hx; apply repeat_spec in Hx; lra.
  - rewrite C44_spike by lia. do 3 eexists. split; [reflexivity|]. pose proof wz28_val as W. unfold wz28 in W. lra.
Qed.
(* the perfect reflector has luminance 100, to fourteen digits *)
Lemma dotp_const c n : forall w, length w = n -> dotp (repeat c n) w = c * fold_right Rplus 0 w.
Proof. induction n; intros [|y w] H; try discriminate; cbn; [ring|]. rewrite IHn by now injection H. ring. Qed.
Lemma sum_Q l : fold_right Rplus 0 (map Q2R l) = Q2R (fold_right Qplus 0%Q l).
Proof. induction l as [|q l IH]; cbn [map fold_right]; [q2r; lra|]. rewrite IH, Q2R_plus. reflexivity. Qed.
Theorem C46_perfect_reflector : forall c : R, exists x y z : R,
  to_xyz_scalar (repeat c 40) = FinXyz (x, y, z) /\ Rabs (y - 100 * c) <= Rabs c * 0.00000000000001.
Proof.
  intro c. rewrite C44_fast_conversion_is_weighted_sum by apply repeat_length. do 3 eexists. split; [reflexivity|].
  rewrite dotp_const by reflexivity. unfold WY. rewrite sum_Q. set (s := Q2R _).
  assert (B : Q2R 99.99999999999999 <= s <= Q2R 100.00000000000001).
  { unfold s. split; apply Qle_Rle; vm_compute; discriminate. }
  clearbody s. replace (c * s - 100 * c) with (c * (s - 100)) by ring. rewrite Rabs_mult.
  apply Rmult_le_compat_l; [apply Rabs_pos|]. apply Rabs_le. lra.
Qed.
End P.

(* ---- C47 ---- *)
(* every number type, so every float: NaN, signed zeros and infinities included *)
Theorem C47_spd_samplewise : forall (T : Type) (OT : RealOps T) (a b : list T) (d v : T), 
  length a = spd_samples -> length b = spd_samples ->
  (length (spd_mul a b) = spd_samples
   /\ forall i, (i < spd_samples)%nat -> nth i (spd_mul a b) d = rmul (nth i a d) (nth i b d))
  /\ (length (spd_constant v) = spd_samples /\ forall i, (i < spd_samples)%nat -> nth i (spd_constant v) d = v)
  /\ (spd_eqb a b = true <-> forall i, (i < spd_samples)%nat -> req (nth i a d) (nth i b d) = true).
Proof.
  intros T OT a b d v Ha Hb. repeat apply conj.
  - unfold spd_mul. rewrite map_length, combine_length, Ha, Hb. reflexivity.
  - intros i Hi. unfold spd_mul. rewrite (nth_indep _ d (rmul d d)).
    + change (rmul d d) with ((fun '(l, r) => rmul l r) (d, d)). rewrite map_nth, combine_nth by congruence. reflexivity.
    + rewrite map_length, combine_length, Ha, Hb. exact Hi.
  - apply repeat_length.
  - intros i Hi. unfold spd_constant. revert i Hi. generalize spd_samples. induction n; intros [|i] Hi; cbn; try lia; [reflexivity|]. apply IHn. lia.
  - unfold spd_eqb. rewrite forallb_forall. intros H i Hi.
    apply (H (nth i a d, nth i b d)). rewrite <- combine_nth by congruence. apply nth_In. rewrite combine_length, Ha, Hb. exact Hi.
  - intro H. unfold spd_eqb. apply forallb_forall. intros [l r] Hin.
    destruct (In_nth _ _ (d, d) Hin) as (i & Hi & E). rewrite combine_length, Ha, Hb in Hi. rewrite combine_nth in E by congruence.
    injection E as <- <-. apply H. exact Hi.
Qed.
Example C47_example : forall (L : libm (binary_float 24 128)) lit,
  @spd_eqb _ (b_ops 24 128 L lit) (repeat B754_nan 40) (repeat B754_nan 40) = false
  /\ @spd_eqb _ (b_ops 24 128 L lit) (repeat (B754_zero true) 40) (repeat (B754_zero false) 40) = true.
Proof. intros. split; reflexivity. Qed.

Print Assumptions C44_fast_conversion_is_weighted_sum.
Print Assumptions C45_avx_equals_scalar.
Print Assumptions C46_nonnegative_partial.
Print Assumptions C47_spd_samplewise.
