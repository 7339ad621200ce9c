(* C119: linear colours in floating point through XYZ and back, and XYZ through RGB and back *)
From Coq Require Import Reals ZArith QArith Qreals Lra Lia Bool List.
From Flocq Require Import Core BinarySingleNaN.
From Verif Require Import Outcome RealOps MathModel ColorModel AdaptModel SpaceModel IllumModel TransformModel XReal FloatInst FloatProofs ErrProofs PropPixel PropDaylight.
Import ListNotations.
Open Scope R_scope.

Section Trip.
Context (prec emax : Z) {Hp : Prec_gt_0 prec} {He : Prec_lt_emax prec emax}.
Notation fl := (binary_float prec emax).
Notation u := (bpow radix2 (- prec)).
Notation eta := (bpow radix2 (2 - emax - prec)).
Local Notation vast := (bpow radix2 60).
Context (P5 : (24 <= prec)%Z) (E5 : (128 <= emax)%Z) (hundred : fl) (Fh : is_finite hundred = true) (Vh : B2R hundred = 100).

(* sizes at which nothing overflows and rounding is relative *)
Definition sized (M : R) : Prop := bpow radix2 (-60) <= M <= bpow radix2 58.
Lemma sized_vast M : sized M -> 0 < M /\ M <= bpow radix2 58 /\ eta <= u * (M / 1000000).
Proof.
  intros (A & B). pose proof (bpow_gt_0 radix2 (-60)) as G. split; [lra|]. split; [exact B|]. apply Rle_trans with (u * (bpow radix2 (-60) / 1000000)); [|apply Rmult_le_compat_l; [apply bpow_ge_0|lra]].
  replace (2 - emax - prec)%Z with (- prec + (2 - emax))%Z by ring. rewrite bpow_plus. apply Rmult_le_compat_l; [apply bpow_ge_0|]. apply Rle_trans with (bpow radix2 (-60 + -20)); [apply bpow_le; lia|]. rewrite bpow_plus. change (bpow radix2 (-20)) with (/ 1048576). lra.
Qed.
Definition apx (c M e : R) (x : fl) : Prop := is_finite x = true /\ Rabs e <= M /\ Rabs (B2R x - e) <= c * (u * M).
Lemma apx_size c M e x : 0 <= c <= 20 -> 0 < M -> apx c M e x -> Rabs (B2R x) <= 1.00001 * M.
Proof.
  intros C M0 (_ & B & D). destruct (PropPixel.u24 prec P5) as [U0 U]. replace (B2R x) with ((B2R x - e) + e) by ring. eapply Rle_trans; [apply Rabs_triang|]. assert (UM : u * M <= / 10000000 * M) by (apply Rmult_le_compat_r; lra). assert (c * (u * M) <= 20 * (u * M)) by (apply Rmult_le_compat_r; [apply Rmult_le_pos; lra|lra]). lra.
Qed.
Lemma apx_mul c M e x : 0 <= c <= 20 -> sized M -> 100 * M <= bpow radix2 58 -> apx c M e x -> apx (c + 1.01) (100 * M) (e * 100) (Bmult mode_NE x hundred).
Proof.
  intros C SM H A. destruct (sized_vast M SM) as (M0 & _ & ET). pose proof (apx_size c M e x C M0 A) as SX. destruct A as (F & B & D). destruct (PropPixel.u24 prec P5) as [U0 U].
  assert (V58 : bpow radix2 58 <= / 2 * vast) by (change 60%Z with (58 + 2)%Z; rewrite bpow_plus; change (bpow radix2 2) with 4; pose proof (bpow_gt_0 radix2 58); lra).
  assert (AX : Rabs (B2R x * B2R hundred) <= 100.001 * M) by (rewrite Vh, Rabs_mult, (Rabs_pos_eq 100) by lra; lra).
  destruct (gmul prec emax P5 E5 x hundred F Fh ltac:(lra)) as (G & R). rewrite Vh in R, AX. split; [exact G|]. split; [rewrite Rabs_mult, (Rabs_pos_eq 100) by lra; lra|].
  replace (B2R (Bmult mode_NE x hundred) - e * 100) with ((B2R (Bmult mode_NE x hundred) - B2R x * 100) + (B2R x - e) * 100) by ring. eapply Rle_trans; [apply Rabs_triang|]. rewrite (Rabs_mult _ 100), (Rabs_pos_eq 100) by lra. assert (u * Rabs (B2R x * 100) <= u * (100.001 * M)) by (apply Rmult_le_compat_l; lra). assert (0 < u * M) by (apply Rmult_lt_0_compat; lra). lra.
Qed.
Lemma apx_div c M e x : 0 <= c <= 20 -> sized M -> sized (M / 100) -> apx c M e x -> apx (c + 1.01) (M / 100) (e / 100) (Bdiv mode_NE x hundred).
Proof.
  intros C SM S2 A. destruct (sized_vast M SM) as (M0 & M58 & _). destruct (sized_vast _ S2) as (_ & _ & ET). pose proof (apx_size c M e x C M0 A) as SX. destruct A as (F & B & D). destruct (PropPixel.u24 prec P5) as [U0 U].
  assert (V58 : bpow radix2 58 <= / 2 * vast) by (change 60%Z with (58 + 2)%Z; rewrite bpow_plus; change (bpow radix2 2) with 4; pose proof (bpow_gt_0 radix2 58); lra).
  assert (DV : forall y, Rabs (y / 100) = Rabs y / 100) by (intro y; unfold Rdiv; rewrite Rabs_mult, (Rabs_pos_eq (/ 100)) by lra; reflexivity). assert (AX : Rabs (B2R x / B2R hundred) <= 1.001 * (M / 100)) by (rewrite Vh, DV; lra).
  destruct (gdiv prec emax P5 E5 x hundred F ltac:(rewrite Vh; lra) ltac:(lra)) as (G & R). rewrite Vh in R, AX. split; [exact G|]. split; [rewrite DV; lra|].
  replace (B2R (Bdiv mode_NE x hundred) - e / 100) with ((B2R (Bdiv mode_NE x hundred) - B2R x / 100) + (B2R x - e) / 100) by field. eapply Rle_trans; [apply Rabs_triang|]. rewrite (DV (B2R x - e)). assert (u * Rabs (B2R x / 100) <= u * (1.001 * (M / 100))) by (apply Rmult_le_compat_l; lra). assert (0 < u * M) by (apply Rmult_lt_0_compat; lra). lra.
Qed.
Lemma apx_row a b c x y z s k M ex ey ez : is_finite a = true -> is_finite b = true -> is_finite c = true -> Rabs (B2R a) + Rabs (B2R b) + Rabs (B2R c) <= s -> 1 <= s -> 0 <= k <= 20 -> sized M -> s * M <= bpow radix2 58 -> apx k M ex x -> apx k M ey y -> apx k M ez z ->
  apx (k + 4.01) (s * M) (B2R a * ex + B2R b * ey + B2R c * ez) (fdot prec emax a b c x y z).
Proof.
  intros Fa Fb Fc A S1 C SM SB X Y Z. destruct (sized_vast M SM) as (M0 & _ & ET). pose proof (apx_size _ _ _ _ C M0 X) as SX. pose proof (apx_size _ _ _ _ C M0 Y) as SY. pose proof (apx_size _ _ _ _ C M0 Z) as SZ. destruct X as (FX & BX & DX), Y as (FY & BY & DY), Z as (FZ & BZ & DZ). destruct (PropPixel.u24 prec P5) as [U0 U].
  assert (SM0 : 1 * M <= s * M) by (apply Rmult_le_compat_r; lra).
  assert (AD : adot prec emax a b c x y z <= 1.00001 * (s * M)). { unfold adot. eapply Rle_trans; [apply (abs3 _ _ _ _ _ _ (1.00001 * M)); assumption|]. apply Rle_trans with (s * (1.00001 * M)); [apply Rmult_le_compat_r; lra|lra]. }
  assert (BB : 2 * bpow radix2 58 <= bpow radix2 (emax - 1)) by (apply Rle_trans with (bpow radix2 (1 + 58)); [rewrite bpow_plus; change (bpow radix2 1) with 2; lra|apply bpow_le; lia]).
  assert (F : is_finite (fdot prec emax a b c x y z) = true) by (apply fdot_finite; try assumption; [lia|pose proof (bpow_gt_0 radix2 58); lra]). split; [exact F|]. split; [apply (dot3 _ _ _ _ _ _ M s); (assumption || lra)|].
  pose proof (fdot_err prec emax a b c x y z ltac:(lia) F) as H. unfold edot in H. pose proof (dot3 (B2R a) (B2R b) (B2R c) (B2R x - ex) (B2R y - ey) (B2R z - ez) (k * (u * M)) s DX DY DZ A) as Q. assert (UM0 : 0 < u * M) by (apply Rmult_lt_0_compat; lra). specialize (Q ltac:(apply Rmult_le_pos; lra)).
  match type of Q with Rabs ?q <= _ => replace (B2R (fdot prec emax a b c x y z) - (B2R a * ex + B2R b * ey + B2R c * ez)) with ((B2R (fdot prec emax a b c x y z) - (B2R a * B2R x + B2R b * B2R y + B2R c * B2R z)) + q) by ring end. eapply Rle_trans; [apply Rabs_triang|].
  assert (4 * u * adot prec emax a b c x y z <= 4 * u * (1.00001 * (s * M))) by (apply Rmult_le_compat_l; lra). assert (u * (1 * M) <= u * (s * M)) by (apply Rmult_le_compat_l; lra). replace (s * (k * (u * M))) with (k * (u * (s * M))) in Q by ring. lra.
Qed.

(* rows of a matrix, over R *)
Definition rowR (m : mat33 fl) (x y z : R) (i : nat) : R := match i with
  | 0%nat => B2R (mx0 m) * x + B2R (mx1 m) * y + B2R (mx2 m) * z | 1%nat => B2R (mx3 m) * x + B2R (mx4 m) * y + B2R (mx5 m) * z | _ => B2R (mx6 m) * x + B2R (mx7 m) * y + B2R (mx8 m) * z end.
Definition rows_le (m : mat33 fl) (s : R) : Prop := ffin prec emax m = true /\ 1 <= s <= 8 /\ Rabs (B2R (mx0 m)) + Rabs (B2R (mx1 m)) + Rabs (B2R (mx2 m)) <= s /\ Rabs (B2R (mx3 m)) + Rabs (B2R (mx4 m)) + Rabs (B2R (mx5 m)) <= s /\ Rabs (B2R (mx6 m)) + Rabs (B2R (mx7 m)) + Rabs (B2R (mx8 m)) <= s.
Definition app3 (m : mat33 fl) (x y z : fl) (i : nat) : fl := match i with
  | 0%nat => fdot prec emax (mx0 m) (mx1 m) (mx2 m) x y z | 1%nat => fdot prec emax (mx3 m) (mx4 m) (mx5 m) x y z | _ => fdot prec emax (mx6 m) (mx7 m) (mx8 m) x y z end.
Lemma apx_mat m s k M ex ey ez x y z i : rows_le m s -> 0 <= k <= 20 -> sized M -> s * M <= bpow radix2 58 -> apx k M ex x -> apx k M ey y -> apx k M ez z -> apx (k + 4.01) (s * M) (rowR m ex ey ez i) (app3 m x y z i).
Proof.
  intros (FM & S1 & A0 & A1 & A2) C SM SB X Y Z. unfold ffin, mat_list in FM. cbn [forallb] in FM. rewrite !andb_true_iff in FM. destruct FM as (N0 & N1 & N2 & N3 & N4 & N5 & N6 & N7 & N8 & _). destruct i as [|[|i]]; cbn [rowR app3]; apply apx_row; try assumption; lra.
Qed.
(* the rows of the product of two matrices are near the unit rows *)
Definition undoes (A B : mat33 fl) (d : R) : Prop := forall x y z M, 0 <= M -> Rabs x <= M -> Rabs y <= M -> Rabs z <= M ->
  let r := rowR A x y z in Rabs (rowR B (r 0%nat) (r 1%nat) (r 2%nat) 0 - x) <= d * M /\ Rabs (rowR B (r 0%nat) (r 1%nat) (r 2%nat) 1 - y) <= d * M /\ Rabs (rowR B (r 0%nat) (r 1%nat) (r 2%nat) 2 - z) <= d * M.

Definition close3f (t : R) (a b c x y z : fl) : Prop := (is_finite x = true /\ Rabs (B2R x - B2R a) <= t) /\ (is_finite y = true /\ Rabs (B2R y - B2R b) <= t) /\ (is_finite z = true /\ Rabs (B2R z - B2R c) <= t).
Lemma wide M : bpow radix2 (-40) <= M <= bpow radix2 40 -> forall k, / 100 <= k <= 6400 -> sized (k * M).
Proof.
  intros (A & B) k (K1 & K2). pose proof (bpow_gt_0 radix2 (-40)) as G. split.
  - apply Rle_trans with (bpow radix2 (-20 + -40)); [apply bpow_le; lia|]. rewrite bpow_plus. change (bpow radix2 (-20)) with (/ 1048576). apply Rmult_le_compat; lra.
  - apply Rle_trans with (bpow radix2 (18 + 40)); [|apply bpow_le; lia]. rewrite bpow_plus. change (bpow radix2 18) with 262144. apply Rmult_le_compat; lra.
Qed.
Lemma exactly_apx M x : 0 <= M -> is_finite x = true -> Rabs (B2R x) <= M -> apx 0 M (B2R x) x.
Proof. intros H F B. split; [exact F|]. split; [exact B|]. rewrite Rminus_diag_eq, Rabs_R0 by reflexivity. rewrite Rmult_0_l. lra. Qed.

Context (L : libm fl) (lit : Q -> fl) (Hl : lit 100.0%Q = hundred).
Notation ops := (b_ops prec emax L lit).
Lemma back_close A B sa sb d t M : rows_le A sa -> rows_le B sb -> undoes A B d -> 10.04 * u * (sa * sb) + d <= t -> 0 < M -> forall e x y, apx 10.04 (sa * sb * M) e x -> Rabs (e - y) <= d * M -> is_finite x = true /\ Rabs (B2R x - y) <= t * M.
Proof.
  intros RA RB U T M0 e x y (F & _ & D) E. split; [exact F|]. replace (B2R x - y) with ((B2R x - e) + (e - y)) by ring. eapply Rle_trans; [apply Rabs_triang|]. assert (H : (10.04 * u * (sa * sb) + d) * M <= t * M) by (apply Rmult_le_compat_r; lra). lra.
Qed.
Lemma there_and_back_ok A B sa sb d t : rows_le A sa -> rows_le B sb -> undoes A B d -> 10.04 * u * (sa * sb) + d <= t ->
  forall M (c : rgbf fl), bpow radix2 (-40) <= M <= bpow radix2 40 -> is_finite (rgb_r c) = true -> is_finite (rgb_g c) = true -> is_finite (rgb_b c) = true -> Rabs (B2R (rgb_r c)) <= M -> Rabs (B2R (rgb_g c)) <= M -> Rabs (B2R (rgb_b c)) <= M ->
  let v := @xyz_to_rgb _ ops B (@rgb_to_xyz _ ops A c) in close3f (t * M) (rgb_r c) (rgb_g c) (rgb_b c) (rgb_r v) (rgb_g v) (rgb_b v).
Proof.
  intros RA RB U T M c HM Fr Fg Fb Hr Hg Hb v. assert (M0 : 0 < M) by (pose proof (bpow_gt_0 radix2 (-40)); lra). pose proof (wide M HM) as WD. assert (SA : 1 <= sa <= 8) by apply RA. assert (SB : 1 <= sb <= 8) by apply RB. assert (SAB : 1 <= sa * sb <= 64) by (split; [apply Rle_trans with (1 * 1); [lra|apply Rmult_le_compat; lra]|apply Rle_trans with (8 * 8); [apply Rmult_le_compat; lra|lra]]).
  assert (S1 : sized M) by (rewrite <- (Rmult_1_l M); apply WD; lra). pose proof (exactly_apx M _ ltac:(lra) Fr Hr) as Xr. pose proof (exactly_apx M _ ltac:(lra) Fg Hg) as Xg. pose proof (exactly_apx M _ ltac:(lra) Fb Hb) as Xb.
  assert (S2 : sized (sa * M)) by (apply WD; lra). assert (S3 : sized (100 * (sa * M))) by (rewrite <- Rmult_assoc; apply WD; lra). assert (S4 : sized (100 * (sa * M) / 100)) by (replace (100 * (sa * M) / 100) with (sa * M) by field; exact S2). assert (S5 : sized (sa * sb * M)) by (apply WD; lra).
  set (r := rowR A (B2R (rgb_r c)) (B2R (rgb_g c)) (B2R (rgb_b c))).
  assert (X : forall i, apx 6.03 (sa * M) (r i) (Bdiv mode_NE (Bmult mode_NE (app3 A (rgb_r c) (rgb_g c) (rgb_b c) i) hundred) hundred)).
  { intro i. pose proof (apx_mat A sa 0 M _ _ _ _ _ _ i RA ltac:(lra) S1 (proj2 S2) Xr Xg Xb) as Y. apply apx_mul in Y; [|lra|exact S2|apply (proj2 S3)]. apply apx_div in Y; [|lra|exact S3|exact S4]. fold r in Y. replace (100 * (sa * M) / 100) with (sa * M) in Y by field. replace (r i * 100 / 100) with (r i) in Y by field. replace (0 + 4.01 + 1.01 + 1.01) with 6.03 in Y by lra. exact Y. }
  assert (Y : forall i, apx 10.04 (sa * sb * M) (rowR B (r 0%nat) (r 1%nat) (r 2%nat) i) (app3 B (Bdiv mode_NE (Bmult mode_NE (app3 A (rgb_r c) (rgb_g c) (rgb_b c) 0) hundred) hundred) (Bdiv mode_NE (Bmult mode_NE (app3 A (rgb_r c) (rgb_g c) (rgb_b c) 1) hundred) hundred) (Bdiv mode_NE (Bmult mode_NE (app3 A (rgb_r c) (rgb_g c) (rgb_b c) 2) hundred) hundred) i)).
  { intro i. replace (sa * sb * M) with (sb * (sa * M)) by ring. replace 10.04 with (6.03 + 4.01) by lra. apply apx_mat; try assumption; try lra; [|apply X..]. replace (sb * (sa * M)) with (sa * sb * M) by ring. apply (proj2 S5). }
  destruct (U _ _ _ M ltac:(lra) Hr Hg Hb) as (U0 & U1 & U2). fold r in U0, U1, U2. pose proof (back_close A B sa sb d t M RA RB U T M0) as BC.
  unfold v, xyz_to_rgb, rgb_to_xyz, mat_mul_rgb, mat_mul_xyz, xyz_mul, xyz_div, xyz_from_scalar. cbn [rgb_r rgb_g rgb_b xyz_x xyz_y xyz_z]. change (@rlit _ ops 100.0%Q) with (lit 100.0%Q). rewrite Hl.
  split; [exact (BC _ _ _ (Y 0%nat) U0)|]. split; [exact (BC _ _ _ (Y 1%nat) U1)|exact (BC _ _ _ (Y 2%nat) U2)].
Qed.
Lemma back_and_there_ok A B sa sb d t : rows_le A sa -> rows_le B sb -> undoes B A d -> 10.04 * u * (sb * sa) + d <= t ->
  forall M (c : xyz fl), bpow radix2 (-40) <= M <= bpow radix2 40 -> is_finite (xyz_x c) = true -> is_finite (xyz_y c) = true -> is_finite (xyz_z c) = true -> Rabs (B2R (xyz_x c)) <= M -> Rabs (B2R (xyz_y c)) <= M -> Rabs (B2R (xyz_z c)) <= M ->
  let v := @rgb_to_xyz _ ops A (@xyz_to_rgb _ ops B c) in close3f (t * M) (xyz_x c) (xyz_y c) (xyz_z c) (xyz_x v) (xyz_y v) (xyz_z v).
Proof.
  intros RA RB U T M c HM Fr Fg Fb Hr Hg Hb v. assert (M0 : 0 < M) by (pose proof (bpow_gt_0 radix2 (-40)); lra). pose proof (wide M HM) as WD. assert (SA : 1 <= sa <= 8) by apply RA. assert (SB : 1 <= sb <= 8) by apply RB. assert (SAB : 1 <= sb * sa <= 64) by (split; [apply Rle_trans with (1 * 1); [lra|apply Rmult_le_compat; lra]|apply Rle_trans with (8 * 8); [apply Rmult_le_compat; lra|lra]]).
  assert (S1 : sized M) by (rewrite <- (Rmult_1_l M); apply WD; lra). assert (S1' : sized (M / 100)) by (replace (M / 100) with (/ 100 * M) by field; apply WD; lra).
  pose proof (apx_div 0 M _ _ ltac:(lra) S1 S1' (exactly_apx M _ ltac:(lra) Fr Hr)) as Xr. pose proof (apx_div 0 M _ _ ltac:(lra) S1 S1' (exactly_apx M _ ltac:(lra) Fg Hg)) as Xg. pose proof (apx_div 0 M _ _ ltac:(lra) S1 S1' (exactly_apx M _ ltac:(lra) Fb Hb)) as Xb.
  assert (S2 : sized (sb * (M / 100))) by (replace (sb * (M / 100)) with (sb / 100 * M) by field; apply WD; lra). assert (S3 : sized (sa * (sb * (M / 100)))) by (replace (sa * (sb * (M / 100))) with (sb * sa / 100 * M) by field; apply WD; lra). assert (S4 : sized (100 * (sa * (sb * (M / 100))))) by (replace (100 * (sa * (sb * (M / 100)))) with (sb * sa * M) by field; apply WD; lra).
  set (x := B2R (xyz_x c) / 100) in *. set (y := B2R (xyz_y c) / 100) in *. set (z := B2R (xyz_z c) / 100) in *. set (r := rowR B x y z). set (fx := Bdiv mode_NE (xyz_x c) hundred) in *. set (fy := Bdiv mode_NE (xyz_y c) hundred) in *. set (fz := Bdiv mode_NE (xyz_z c) hundred) in *.
  assert (X : forall i, apx 5.02 (sb * (M / 100)) (r i) (app3 B fx fy fz i)).
  { intro i. pose proof (apx_mat B sb (0 + 1.01) (M / 100) _ _ _ _ _ _ i RB ltac:(lra) S1' (proj2 S2) Xr Xg Xb) as Y. replace (0 + 1.01 + 4.01) with 5.02 in Y by lra. exact Y. }
  assert (Y : forall i, apx 10.04 (sb * sa * M) (rowR A (r 0%nat) (r 1%nat) (r 2%nat) i * 100) (Bmult mode_NE (app3 A (app3 B fx fy fz 0) (app3 B fx fy fz 1) (app3 B fx fy fz 2) i) hundred)).
  { intro i. pose proof (apx_mat A sa 5.02 _ _ _ _ _ _ _ i RA ltac:(lra) S2 (proj2 S3) (X 0%nat) (X 1%nat) (X 2%nat)) as Y. apply apx_mul in Y; [|lra|exact S3|apply (proj2 S4)]. replace (100 * (sa * (sb * (M / 100)))) with (sb * sa * M) in Y by field. replace (5.02 + 4.01 + 1.01) with 10.04 in Y by lra. exact Y. }
  assert (DV : forall q, Rabs q <= M -> Rabs (q / 100) <= M / 100) by (intros q Hq; unfold Rdiv; rewrite Rabs_mult, (Rabs_pos_eq (/ 100)) by lra; lra).
  destruct (U x y z (M / 100) ltac:(lra) (DV _ Hr) (DV _ Hg) (DV _ Hb)) as (U0 & U1 & U2). fold r in U0, U1, U2. pose proof (back_close B A sb sa d t M RB RA U T M0) as BC.
  assert (HU : forall p q, Rabs (p - q / 100) <= d * (M / 100) -> Rabs (p * 100 - q) <= d * M). { intros p q H. replace (p * 100 - q) with ((p - q / 100) * 100) by field. rewrite Rabs_mult, (Rabs_pos_eq 100) by lra. lra. }
  unfold v, xyz_to_rgb, rgb_to_xyz, mat_mul_rgb, mat_mul_xyz, xyz_mul, xyz_div, xyz_from_scalar. cbn [rgb_r rgb_g rgb_b xyz_x xyz_y xyz_z]. change (@rlit _ ops 100.0%Q) with (lit 100.0%Q). rewrite Hl. fold fx fy fz.
  split; [exact (BC _ _ _ (Y 0%nat) (HU _ _ U0))|]. split; [exact (BC _ _ _ (Y 1%nat) (HU _ _ U1))|exact (BC _ _ _ (Y 2%nat) (HU _ _ U2))].
Qed.
End Trip.

(* ---- the condition on two matrices, in integers; the tolerance is num/den ---- *)
Section Check.
Context (prec emax : Z) {Hp : Prec_gt_0 prec} {He : Prec_lt_emax prec emax}.
Notation fl := (binary_float prec emax).
Notation u := (bpow radix2 (- prec)).
Definition zrow (a : mat33 Z) (o : Z) : Z := Z.max o (Z.max (sum3 (mx0 a) (mx1 a) (mx2 a)) (Z.max (sum3 (mx3 a) (mx4 a) (mx5 a)) (sum3 (mx6 a) (mx7 a) (mx8 a)))).
Definition zres (a b : mat33 Z) (q : Z) : Z := Z.max (resid (mx0 b) (mx1 b) (mx2 b) a q 0 0) (Z.max (resid (mx3 b) (mx4 b) (mx5 b) a 0 q 0) (resid (mx6 b) (mx7 b) (mx8 b) a 0 0 q)).
Definition trip_ok (k : Z) (t : Q) (A B : mat33 fl) : bool :=
  (0 <=? k)%Z && forallb (good prec emax k) (mat_list A) && forallb (good prec emax k) (mat_list B) &&
  let a := zmat prec emax k A in let b := zmat prec emax k B in let o := (2 ^ k)%Z in let q := (o * o)%Z in
  ((zrow a o <=? 8 * o) && (zrow b o <=? 8 * o) && ((11 * zrow a o * zrow b o + zres a b q * 2 ^ prec) * Zpos (Qden t) <=? Qnum t * (q * 2 ^ prec)))%Z.

Lemma in_rows k (A : mat33 fl) : (0 <= k)%Z -> forallb (good prec emax k) (mat_list A) = true -> let o := IZR (2 ^ k) in forall s, (zrow (zmat prec emax k A) (2 ^ k) = s)%Z -> (s <= 8 * 2 ^ k)%Z -> rows_le prec emax A (IZR s / o).
Proof.
  intros K G o s E S8. assert (O1 : (0 < 2 ^ k)%Z) by (apply Z.pow_pos_nonneg; lia). assert (OP : 0 < o) by (apply IZR_lt, O1).
  assert (ZA : forall x, In x (mat_list A) -> IZR (zent prec emax k x) = B2R x * o) by (intros x I; apply zent_ok; [exact K|]; eapply forallb_forall in G; eassumption).
  split; [unfold ffin; apply forallb_forall; intros x I; apply (zent_ok prec emax k); [exact K|]; eapply forallb_forall in G; eassumption|].
  split. { assert (2 ^ k <= s)%Z by (rewrite <- E; unfold zrow; lia). apply IZR_le in H, S8. rewrite mult_IZR in S8. fold o in H, S8. split; apply (Rmult_le_reg_r o); try lra; unfold Rdiv; rewrite Rmult_assoc, Rinv_l by lra; lra. }
  assert (RA : forall x y z, In x (mat_list A) -> In y (mat_list A) -> In z (mat_list A) -> (sum3 (zent prec emax k x) (zent prec emax k y) (zent prec emax k z) <= s)%Z -> Rabs (B2R x) + Rabs (B2R y) + Rabs (B2R z) <= IZR s / o).
  { intros x y z Ix Iy Iz H. eapply under; [exact OP|apply sum3_ok; [lra|apply ZA; assumption..]|exact H]. }
  unfold zrow, zmat in E. cbn [mx0 mx1 mx2 mx3 mx4 mx5 mx6 mx7 mx8] in E.
  split; [|split]; apply RA; try (cbn [In mat_list]; auto 12); lia.
Qed.
Lemma in_undoes k (A B : mat33 fl) : (0 <= k)%Z -> forallb (good prec emax k) (mat_list A) = true -> forallb (good prec emax k) (mat_list B) = true -> let o := IZR (2 ^ k) in
  undoes prec emax A B (IZR (zres (zmat prec emax k A) (zmat prec emax k B) (2 ^ k * 2 ^ k)) / (o * o)).
Proof.
  intros K GA GB o. assert (O1 : (0 < 2 ^ k)%Z) by (apply Z.pow_pos_nonneg; lia). assert (OP : 0 < o) by (apply IZR_lt, O1). assert (OO : 0 < o * o) by (apply Rmult_lt_0_compat; exact OP).
  assert (ZA : forall x, In x (mat_list A) -> IZR (zent prec emax k x) = B2R x * o) by (intros x I; apply zent_ok; [exact K|]; eapply forallb_forall in GA; eassumption).
  assert (ZB : forall x, In x (mat_list B) -> IZR (zent prec emax k x) = B2R x * o) by (intros x I; apply zent_ok; [exact K|]; eapply forallb_forall in GB; eassumption).
  set (d := zres _ _ _). destruct A as [a0 a1 a2 a3 a4 a5 a6 a7 a8], B as [b0 b1 b2 b3 b4 b5 b6 b7 b8]. unfold zres, zmat in d. cbn [mx0 mx1 mx2 mx3 mx4 mx5 mx6 mx7 mx8 mat_list] in *.
  assert (RD : forall x y z (e0 e1 e2 : Z), In x [b0; b1; b2; b3; b4; b5; b6; b7; b8] -> In y [b0; b1; b2; b3; b4; b5; b6; b7; b8] -> In z [b0; b1; b2; b3; b4; b5; b6; b7; b8] ->
    (resid (zent prec emax k x) (zent prec emax k y) (zent prec emax k z) (Mat33 (zent prec emax k a0) (zent prec emax k a1) (zent prec emax k a2) (zent prec emax k a3) (zent prec emax k a4) (zent prec emax k a5) (zent prec emax k a6) (zent prec emax k a7) (zent prec emax k a8)) (e0 * (2 ^ k * 2 ^ k)) (e1 * (2 ^ k * 2 ^ k)) (e2 * (2 ^ k * 2 ^ k)) <= d)%Z ->
    Rabs (B2R x * B2R a0 + B2R y * B2R a3 + B2R z * B2R a6 - IZR e0) + Rabs (B2R x * B2R a1 + B2R y * B2R a4 + B2R z * B2R a7 - IZR e1) + Rabs (B2R x * B2R a2 + B2R y * B2R a5 + B2R z * B2R a8 - IZR e2) <= IZR d / (o * o)).
  { intros x y z e0 e1 e2 Ix Iy Iz H. eapply under; [exact OO| |exact H]. unfold resid. cbn [mx0 mx1 mx2 mx3 mx4 mx5 mx6 mx7 mx8].
    apply sum3_ok; [lra|..]; rewrite minus_IZR, !plus_IZR, !mult_IZR, (ZB x Ix), (ZB y Iy), (ZB z Iz) , !ZA by (cbn [In mat_list]; auto 12); fold o; ring. }
  pose proof (RD b0 b1 b2 1%Z 0%Z 0%Z ltac:(cbn [In]; auto 12) ltac:(cbn [In]; auto 12) ltac:(cbn [In]; auto 12) ltac:(rewrite Z.mul_1_l, Z.mul_0_l; unfold d; apply Z.le_max_l)) as D0.
  pose proof (RD b3 b4 b5 0%Z 1%Z 0%Z ltac:(cbn [In]; auto 12) ltac:(cbn [In]; auto 12) ltac:(cbn [In]; auto 12) ltac:(rewrite Z.mul_1_l, Z.mul_0_l; unfold d; lia)) as D1.
  pose proof (RD b6 b7 b8 0%Z 0%Z 1%Z ltac:(cbn [In]; auto 12) ltac:(cbn [In]; auto 12) ltac:(cbn [In]; auto 12) ltac:(rewrite Z.mul_1_l, Z.mul_0_l; unfold d; lia)) as D2.
  intros x y z M M0 X Y Z. cbn [rowR mx0 mx1 mx2 mx3 mx4 mx5 mx6 mx7 mx8].
  pose proof (dot3 _ _ _ _ _ _ _ _ X Y Z D0 M0) as E0. pose proof (dot3 _ _ _ _ _ _ _ _ X Y Z D1 M0) as E1. pose proof (dot3 _ _ _ _ _ _ _ _ X Y Z D2 M0) as E2.
  split; [|split]; [eapply Rle_trans; [|exact E0]|eapply Rle_trans; [|exact E1]|eapply Rle_trans; [|exact E2]]; right; f_equal; ring.
Qed.
Lemma trip_ok_spec k t (A B : mat33 fl) : (1 < prec)%Z -> trip_ok k t A B = true -> exists sa sb d, rows_le prec emax A sa /\ rows_le prec emax B sb /\ undoes prec emax A B d /\ 10.04 * u * (sa * sb) + d <= Q2R t.
Proof.
  intros P H. unfold trip_ok in H. rewrite !andb_true_iff in H. destruct H as [[[K GA] GB] H]. apply Z.leb_le in K. cbv zeta in H. rewrite !Z.leb_le in H. destruct H as [[CA CB] CD].
  pose proof (in_rows k A K GA _ eq_refl CA) as RA. pose proof (in_rows k B K GB _ eq_refl CB) as RB. pose proof (in_undoes k A B K GA GB) as UD. cbv zeta in RA, RB, UD.
  eexists _, _, _. split; [exact RA|]. split; [exact RB|]. split; [exact UD|]. set (sa := zrow (zmat prec emax k A) (2 ^ k)) in *. set (sb := zrow (zmat prec emax k B) (2 ^ k)) in *. set (d := zres _ _ _) in *. 
  assert (O1 : (0 < 2 ^ k)%Z) by (apply Z.pow_pos_nonneg; lia). apply IZR_lt in O1. set (o := IZR (2 ^ k)) in *. assert (OO : 0 < o * o) by (apply Rmult_lt_0_compat; exact O1).
  apply IZR_le in CD. rewrite !mult_IZR, !plus_IZR, !mult_IZR in CD. fold o in CD. change 2%Z with (radix_val radix2) in CD. rewrite IZR_Zpower in CD by lia. set (p := bpow radix2 prec) in *. assert (P0 : 0 < p) by (apply bpow_gt_0). assert (UP : u = / p) by (unfold p; apply bpow_opp). rewrite UP.
  assert (S0 : 0 <= IZR sa * IZR sb) by (destruct RA as (_ & RA & _); destruct RB as (_ & RB & _); assert (0 <= IZR sa / o * o) by (apply Rmult_le_pos; lra); assert (0 <= IZR sb / o * o) by (apply Rmult_le_pos; lra); apply Rmult_le_pos; [replace (IZR sa) with (IZR sa / o * o) by (field; lra)|replace (IZR sb) with (IZR sb / o * o) by (field; lra)]; assumption).
  replace (Q2R t) with (IZR (Qnum t) * / IZR (Z.pos (Qden t))) by reflexivity. assert (T0 : 0 < IZR (Z.pos (Qden t))) by (apply IZR_lt; reflexivity). set (tn := IZR (Qnum t)) in *. set (td := IZR (Z.pos (Qden t))) in *.
  apply (Rmult_le_reg_r (o * o * p * td)); [apply Rmult_lt_0_compat; [apply Rmult_lt_0_compat; [exact OO|exact P0]|exact T0]|].
  replace ((10.04 * / p * (IZR sa / o * (IZR sb / o)) + IZR d / (o * o)) * (o * o * p * td)) with ((10.04 * (IZR sa * IZR sb) + IZR d * p) * td) by (field; lra). replace (tn * / td * (o * o * p * td)) with (tn * (o * o * p)) by (field; lra).
  eapply Rle_trans; [|exact CD]. apply Rmult_le_compat_r; lra.
Qed.
End Check.

(* the space, and the relative error of a trip in f32 and f64 *)
Section Lists.
Context {T : Type} {O : RealOps T}.
Definition tols32 : list Q := [0.000074; 0.0000042; 0.0000042; 0.000002; 0.0000035; 0.0000031; 0.0000018; 0.0000022; 0.0000171; 0.0000044]%Q.
Definition tols64 : list Q := [0.00007; 8e-15; 8e-15; 4e-15; 7e-15; 6e-15; 1.1e-10; 4e-15; 0.000015; 0.0000021]%Q.
End Lists.
Definition trips p e (O : RealOps (binary_float p e)) (ts : list Q) : bool :=
  forallb (fun sn => match fst (fst sn) with Ret s =>
    forallb (fun w => match rgb_to_xyz_matrix w s, xyz_to_rgb_matrix w s with Ret A, Ret B => trip_ok p e 120 (snd sn) A B && trip_ok p e 120 (snd sn) B A | _, _ => false end) whites | _ => false end) (combine spaces ts).
Lemma trips32 (L : libm f32) : trips 24 128 (f32_ops L) tols32 = true. Proof. vm_compute. reflexivity. Qed.
Lemma trips64 (L : libm f64) : trips 53 1024 (f64_ops L) tols64 = true. Proof. vm_compute. reflexivity. Qed.

(* colours of any size M from 2^-40 to 2^40, inside the gamut or not, come back within t * M *)
Definition comes_back p e {O : RealOps (binary_float p e)} (t : R) (w : xyy (binary_float p e)) (s : color_space (binary_float p e)) : Prop :=
  exists A B, rgb_to_xyz_matrix w s = Ret A /\ xyz_to_rgb_matrix w s = Ret B /\ forall M, bpow radix2 (-40) <= M <= bpow radix2 40 ->
    (forall c, is_finite (rgb_r c) = true -> is_finite (rgb_g c) = true -> is_finite (rgb_b c) = true -> Rabs (B2R (rgb_r c)) <= M -> Rabs (B2R (rgb_g c)) <= M -> Rabs (B2R (rgb_b c)) <= M ->
      let v := xyz_to_rgb B (rgb_to_xyz A c) in close3f p e (t * M) (rgb_r c) (rgb_g c) (rgb_b c) (rgb_r v) (rgb_g v) (rgb_b v)) /\
    (forall c, is_finite (xyz_x c) = true -> is_finite (xyz_y c) = true -> is_finite (xyz_z c) = true -> Rabs (B2R (xyz_x c)) <= M -> Rabs (B2R (xyz_y c)) <= M -> Rabs (B2R (xyz_z c)) <= M ->
      let v := rgb_to_xyz A (xyz_to_rgb B c) in close3f p e (t * M) (xyz_x c) (xyz_y c) (xyz_z c) (xyz_x v) (xyz_y v) (xyz_z v)).
Lemma from_trips p e {Hp : Prec_gt_0 p} {He : Prec_lt_emax p e} (L : libm (binary_float p e)) (lit : Q -> binary_float p e) ts : (24 <= p)%Z -> (128 <= e)%Z -> is_finite (lit 100.0%Q) = true -> B2R (lit 100.0%Q) = 100 -> length ts = 10%nat -> trips p e (b_ops p e L lit) ts = true ->
  Forall2 (fun on t => exists s, fst on = Ret s /\ forall w, In w (@whites _ (b_ops p e L lit)) -> @comes_back p e (b_ops p e L lit) (Q2R t) w s) (@spaces _ (b_ops p e L lit)) ts.
Proof.
  intros P E Fh Vh LT C. unfold trips in C. rewrite forallb_forall in C.
  assert (ST : forall o t, In (o, t) (combine (@spaces _ (b_ops p e L lit)) ts) -> exists s, fst o = Ret s /\ forall w, In w (@whites _ (b_ops p e L lit)) -> @comes_back p e (b_ops p e L lit) (Q2R t) w s).
  { intros o t I. specialize (C _ I). cbn [fst snd] in C. destruct (fst o) as [s| |]; try discriminate. exists s. split; [reflexivity|]. intros w W. rewrite forallb_forall in C. specialize (C _ W).
    destruct (rgb_to_xyz_matrix w s) as [A| |] eqn:EA; try discriminate. destruct (xyz_to_rgb_matrix w s) as [B| |] eqn:EB; try discriminate. apply andb_true_iff in C. destruct C as (C1 & C2).
    destruct (trip_ok_spec p e 120 t A B ltac:(lia) C1) as (sa & sb & d & RA & RB & U & D). destruct (trip_ok_spec p e 120 t B A ltac:(lia) C2) as (sb' & sa' & d' & RB' & RA' & U' & D').
    exists A, B. split; [exact EA|]. split; [exact EB|]. intros M HM. split; intros c F1 F2 F3 H1 H2 H3.
    - exact (there_and_back_ok p e P E (lit 100.0%Q) Fh Vh L lit eq_refl A B sa sb d (Q2R t) RA RB U D M c HM F1 F2 F3 H1 H2 H3).
    - exact (back_and_there_ok p e P E (lit 100.0%Q) Fh Vh L lit eq_refl A B sa' sb' d' (Q2R t) RA' RB' U' D' M c HM F1 F2 F3 H1 H2 H3). }
  clear C. assert (LS : length (@spaces _ (b_ops p e L lit)) = length ts) by (rewrite LT; reflexivity). revert ST LS. generalize (@spaces _ (b_ops p e L lit)). clear LT. intro l. revert ts. induction l as [|o l IH]; intros [|t ts] ST LS; try discriminate; constructor; [apply ST; left; reflexivity|]. apply IH; [intros; apply ST; right; assumption|cbn in LS; congruence].
Qed.
Theorem C119_f32 (L : libm f32) : Forall2 (fun on t => exists s, fst on = Ret s /\ forall w, In w (@whites _ (f32_ops L)) -> @comes_back 24 128 (f32_ops L) (Q2R t) w s) (@spaces _ (f32_ops L)) tols32.
Proof.
  apply (from_trips 24 128 L); [lia|lia|reflexivity| |reflexivity|exact (trips32 L)]. rewrite <- SF2R_B2SF. change (B2SF (f64_to_f32 (b_of_Q 53 1024 100.0))) with (SpecFloat.S754_finite false 13107200 (-17)).
  unfold SF2R, F2R. cbn [Fnum Fexp cond_Zopp]. change (bpow radix2 (-17)) with (/ 131072). lra.
Qed.
Theorem C119_f64 (L : libm f64) : Forall2 (fun on t => exists s, fst on = Ret s /\ forall w, In w (@whites _ (f64_ops L)) -> @comes_back 53 1024 (f64_ops L) (Q2R t) w s) (@spaces _ (f64_ops L)) tols64.
Proof. apply (from_trips 53 1024 L); [lia|lia|reflexivity| |reflexivity|exact (trips64 L)]. apply (b_of_Q_int 53 1024 100.0 100); [q2r; lra|cbn; lia]. Qed.

(* a bright colour outside the gamut, through BT.2020 and D50, in f32 *)
Example C119_example (L : libm f32) : let z n := b_of_Z 24 128 n in let c := Rgb (z 16%Z) (z (-3)%Z) (z 5%Z) in exists s A B, @ITUR_BT2020 _ (f32_ops L) = Ret s /\ @rgb_to_xyz_matrix _ (f32_ops L) (@xy_D50 _ (f32_ops L)) s = Ret A /\ @xyz_to_rgb_matrix _ (f32_ops L) (@xy_D50 _ (f32_ops L)) s = Ret B /\
  let v := @xyz_to_rgb _ (f32_ops L) B (@rgb_to_xyz _ (f32_ops L) A c) in is_finite (rgb_g v) = true /\ Rabs (B2R (rgb_g v) + 3) <= 0.00004.
Proof.
  cbv zeta. pose proof (C119_f32 L) as H. unfold spaces, tols32 in H. do 3 (inversion H as [|? ? ? ? _ H']; subst; clear H; rename H' into H). inversion H as [|? ? ? ? (s & E & G) _]; subst; clear H. cbn [fst] in E.
  destruct (G (@xy_D50 _ (f32_ops L)) ltac:(left; reflexivity)) as (A & B & EA & EB & T). exists s, A, B. split; [exact E|]. split; [exact EA|]. split; [exact EB|].
  assert (M16 : bpow radix2 (-40) <= bpow radix2 4 <= bpow radix2 40) by (split; apply bpow_le; lia). destruct (T _ M16) as (T1 & _). clear T G. cbv zeta in T1.
  assert (V : forall n, (Z.abs n <= 16)%Z -> is_finite (b_of_Z 24 128 n) = true /\ B2R (b_of_Z 24 128 n) = IZR n). { intros n Hn. destruct (b_of_Z_exact 24 128 n ltac:(change (2 ^ 24)%Z with 16777216%Z; lia)) as (V1 & V2 & _). split; [exact V2|exact V1]. }
  destruct (V 16%Z ltac:(lia)) as (F1 & V1). destruct (V (-3)%Z ltac:(lia)) as (F2 & V2). destruct (V 5%Z ltac:(lia)) as (F3 & V3).
  destruct (T1 (Rgb (b_of_Z 24 128 16) (b_of_Z 24 128 (-3)) (b_of_Z 24 128 5)) F1 F2 F3) as (_ & (X & Y) & _); cbn [rgb_r rgb_g rgb_b]; rewrite ?V1, ?V2, ?V3; change (bpow radix2 4) with 16; try (apply Rabs_le; lra).
  split; [exact X|]. cbn [rgb_g] in Y. rewrite V2 in Y. change (bpow radix2 4) with 16 in Y. match type of Y with Rabs (?a - -3) <= _ => assert (E3 : a - -3 = a + 3) by ring end. rewrite E3 in Y. eapply Rle_trans; [exact Y|]. clear. q2r. lra.
Qed.
