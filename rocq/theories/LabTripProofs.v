(* a colour from linear light to XYZ, to Lab and back again, in floating point *)
From Coq Require Import Reals ZArith QArith Qreals Lra Lia Bool List.
From Flocq Require Import Core BinarySingleNaN.
From Verif Require Import Outcome RealOps MathModel ColorModel LabModel SpaceModel TransformModel XReal FloatInst FloatProofs ErrProofs LabProofs PropPixel RelErr CurveProofs PropCurve PropSelf LabErrProofs.
Import ListNotations.
Open Scope R_scope.

(* the largest and smallest value of a row over the cube [0,m]^3 *)
Lemma row_max a b c x y z m : 0 <= x <= m -> 0 <= y <= m -> 0 <= z <= m ->
  - (m * (Rmax (- a) 0 + Rmax (- b) 0 + Rmax (- c) 0)) <= a * x + b * y + c * z <= m * (Rmax a 0 + Rmax b 0 + Rmax c 0).
Proof.
  intros X Y Z. assert (P : forall a x, 0 <= x <= m -> - (m * Rmax (- a) 0) <= a * x <= m * Rmax a 0).
  { clear. intros a x X. pose proof (Rmax_l a 0). pose proof (Rmax_r a 0). pose proof (Rmax_l (- a) 0). pose proof (Rmax_r (- a) 0). split.
    - assert (- a * x <= Rmax (- a) 0 * m) by (destruct (Rle_dec 0 (- a)); [apply Rmult_le_compat; lra|apply Rle_trans with 0; [nra|apply Rmult_le_pos; lra]]). lra.
    - assert (a * x <= Rmax a 0 * m) by (destruct (Rle_dec 0 a); [apply Rmult_le_compat; lra|apply Rle_trans with 0; [nra|apply Rmult_le_pos; lra]]). lra. }
  pose proof (P a x X). pose proof (P b y Y). pose proof (P c z Z). lra.
Qed.

Section T.
Context (prec emax : Z) {Hp : Prec_gt_0 prec} {He : Prec_lt_emax prec emax}.
Notation fl := (binary_float prec emax).
Notation u := (bpow radix2 (- prec)).
Notation eta := (bpow radix2 (2 - emax - prec)).
Notation rnd := (round radix2 (SpecFloat.fexp prec emax) ZnearestE).
Context (P5 : (24 <= prec)%Z) (E5 : (128 <= emax)%Z).
Context (L : libm fl) (lit : Q -> fl) (PW : powf_ok prec emax (l_powf L)) (PI : powi3_ok prec emax (l_powi L)) (LX : exact_lit prec emax lit).
Context (Fh : is_finite (lit 100.0%Q) = true) (Vh : B2R (lit 100.0%Q) = 100).
Notation ops := (b_ops prec emax L lit).
Notation hundred := (lit 100.0%Q).

(* one component of XYZ *)
Lemma up_ok a b c x y z sa m : is_finite a = true -> is_finite b = true -> is_finite c = true -> is_finite x = true -> is_finite y = true -> is_finite z = true ->
  Rabs (B2R a) + Rabs (B2R b) + Rabs (B2R c) <= sa -> 0 <= B2R x <= m -> 0 <= B2R y <= m -> 0 <= B2R z <= m -> 1 <= sa <= 1.7 -> 1 <= m <= 1.05 ->
  let X := Bmult mode_NE (fdot prec emax a b c x y z) hundred in let e := B2R a * B2R x + B2R b * B2R y + B2R c * B2R z in
  is_finite X = true /\ Rabs (B2R X - 100 * e) <= 500.3 * u * (sa * m) /\ Rabs e <= sa * m.
Proof.
  intros Fa Fb Fc Fx Fy Fz A X Y Z HS HM. destruct (CurveProofs.u24 prec P5) as [U0 U]. destruct (eta_le prec emax E5) as [T0 T].
  assert (CX : Rabs (B2R x) <= m) by (apply Rabs_le; lra). assert (CY : Rabs (B2R y) <= m) by (apply Rabs_le; lra). assert (CZ : Rabs (B2R z) <= m) by (apply Rabs_le; lra).
  destruct (row_ok prec emax P5 ltac:(lia) a b c x y z sa m Fa Fb Fc Fx Fy Fz A CX CY CZ ltac:(lra) ltac:(lra)) as [F1 E1]. pose proof (dot3 _ _ _ _ _ _ _ _ CX CY CZ A ltac:(lra)) as De. cbv zeta.
  set (e := B2R a * B2R x + _ + _) in *. set (v := fdot _ _ _ _ _ _ _ _) in *. assert (SM : 1 <= sa * m <= 1.785) by (split; nra). set (sm := sa * m) in *.
  assert (VB : Rabs (B2R v * B2R hundred) <= 100.01 * sm). { rewrite Vh, Rabs_mult, (Rabs_pos_eq 100) by lra. assert (Rabs (B2R v) <= 1.0001 * sm); [|lra]. replace (B2R v) with ((B2R v - e) + e) by ring. tri. assert (u * sm <= / 10000000 * sm) by (apply Rmult_le_compat_r; lra). lra. }
  destruct (amul prec emax P5 E5 v hundred _ F1 Fh VB ltac:(lra)) as [F2 E2]. rewrite Vh in E2. split; [exact F2|]. split; [|exact De].
  assert (E3 : Rabs (B2R v * 100 - 100 * e) <= 100 * (4.001 * u * sm)). { replace (B2R v * 100 - 100 * e) with (100 * (B2R v - e)) by ring. rewrite Rabs_mult, (Rabs_pos_eq 100) by lra. lra. }
  pose proof (near_trans _ _ _ _ _ E2 E3). assert (u * 1 <= u * sm) by (apply Rmult_le_compat_l; lra). lra.
Qed.
Lemma in_range (X w : fl) (e pos neg : R) : is_finite X = true -> is_finite w = true -> 50 <= B2R w <= 110 -> Rabs (B2R X - 100 * e) <= 900 * u -> - neg <= e <= pos -> 100 * pos <= 1.149 * B2R w -> 100 * neg <= 0.149 * B2R w -> in_gamut prec emax X w.
Proof.
  intros F Fw W H R0 R1 R2. destruct (CurveProofs.u24 prec P5) as [U0 U]. apply Rabs_le_inv in H. split; [exact F|]. split; [exact Fw|]. split; [exact W|].
  split; apply (Rmult_le_reg_r (B2R w)); try lra; unfold Rdiv; rewrite Rmult_assoc, Rinv_l by lra; lra.
Qed.
(* back to one component of linear light, X Y Z having moved by no more than the Lab trip moves them *)
Lemma down_ok b0 b1 b2 (X Y Z : fl) ex ey ez sm sb : is_finite b0 = true -> is_finite b1 = true -> is_finite b2 = true -> is_finite X = true -> is_finite Y = true -> is_finite Z = true ->
  Rabs (B2R b0) + Rabs (B2R b1) + Rabs (B2R b2) <= sb -> 1 <= sb <= 8 -> 1 <= sm <= 1.785 -> Rabs ex <= sm -> Rabs ey <= sm -> Rabs ez <= sm ->
  Rabs (B2R X - 100 * ex) <= 500.3 * u * sm + 7920 * u -> Rabs (B2R Y - 100 * ey) <= 500.3 * u * sm + 7920 * u -> Rabs (B2R Z - 100 * ez) <= 500.3 * u * sm + 7920 * u ->
  let v := fdot prec emax b0 b1 b2 (Bdiv mode_NE X hundred) (Bdiv mode_NE Y hundred) (Bdiv mode_NE Z hundred) in
  is_finite v = true /\ Rabs (B2R v - (B2R b0 * ex + B2R b1 * ey + B2R b2 * ez)) <= 10.2 * u * (sm * sb) + 79.3 * u * sb.
Proof.
  intros F0 F1 F2 FX FY FZ B HB HS HX HY HZ EX EY EZ. destruct (CurveProofs.u24 prec P5) as [U0 U]. destruct (eta_le prec emax E5) as [T0 T].
  assert (US : u * sm <= / 10000000 * sm) by (apply Rmult_le_compat_r; lra). assert (US1 : u * 1 <= u * sm) by (apply Rmult_le_compat_l; lra).
  assert (D : forall (W : fl) w, is_finite W = true -> Rabs w <= sm -> Rabs (B2R W - 100 * w) <= 500.3 * u * sm + 7920 * u -> is_finite (Bdiv mode_NE W hundred) = true /\ Rabs (B2R (Bdiv mode_NE W hundred) - w) <= 6.01 * u * sm + 79.21 * u /\ Rabs (B2R (Bdiv mode_NE W hundred)) <= 1.002 * sm).
  { intros W w FW Hw HW. assert (A : Rabs (B2R W / 100 - w) <= 5.003 * u * sm + 79.2 * u). { replace (B2R W / 100 - w) with (/ 100 * (B2R W - 100 * w)) by field. rewrite Rabs_mult, (Rabs_pos_eq (/ 100)) by lra. lra. }
    assert (S : Rabs (B2R W / B2R hundred) <= 1.001 * sm). { rewrite Vh. replace (B2R W / 100) with ((B2R W / 100 - w) + w) by ring. tri. lra. }
    destruct (adiv prec emax P5 E5 W hundred _ FW ltac:(lra) S ltac:(lra)) as [Q1 Q2]. rewrite Vh in Q2. split; [exact Q1|]. pose proof (near_trans _ _ _ _ _ Q2 A) as Q3. split; [lra|]. replace (B2R (Bdiv mode_NE W hundred)) with ((B2R (Bdiv mode_NE W hundred) - w) + w) by ring. tri. lra. }
  destruct (D X ex FX HX EX) as (X1 & X2 & X3). destruct (D Y ey FY HY EY) as (Y1 & Y2 & Y3). destruct (D Z ez FZ HZ EZ) as (Z1 & Z2 & Z3). cbv zeta.
  destruct (row_ok prec emax P5 ltac:(lia) b0 b1 b2 _ _ _ sb (1.002 * sm) F0 F1 F2 X1 Y1 Z1 B X3 Y3 Z3 HB ltac:(lra)) as [V1 V2]. split; [exact V1|].
  set (wx := B2R (Bdiv mode_NE X hundred)) in *. set (wy := B2R (Bdiv mode_NE Y hundred)) in *. set (wz := B2R (Bdiv mode_NE Z hundred)) in *.
  pose proof (dot3 (B2R b0) (B2R b1) (B2R b2) (wx - ex) (wy - ey) (wz - ez) _ sb X2 Y2 Z2 B ltac:(lra)) as Q.
  replace (B2R b0 * (wx - ex) + B2R b1 * (wy - ey) + B2R b2 * (wz - ez)) with ((B2R b0 * wx + B2R b1 * wy + B2R b2 * wz) - (B2R b0 * ex + B2R b1 * ey + B2R b2 * ez)) in Q by ring.
  pose proof (near_trans _ _ _ _ _ V2 Q). assert (0 <= u * (sm * sb)) by (apply Rmult_le_pos; [lra|nra]). assert (0 <= u * sb) by (apply Rmult_le_pos; lra). lra.
Qed.

(* ---- the check on the matrices and the white, in integers ---- *)
Notation zent := (zent prec emax).
Notation good := (good prec emax).
Notation zmat := (zmat prec emax).
Definition posz (a b c : Z) : Z := (Z.max a 0 + Z.max b 0 + Z.max c 0)%Z.
Definition row_range (yc a b c w : Z) : bool := ((1000 * yc * posz a b c <=? 1149 * w) && (1000 * yc * posz (- a) (- b) (- c) <=? 149 * w))%Z.
Definition white_range (o w : Z) : bool := ((50 * o <=? w) && (w <=? 110 * o))%Z.
(* linear light up to yc / 100 comes back within D / 10^12 *)
Definition lab_check (k yc D : Z) (A B : mat33 fl) (W : xyz fl) : bool :=
  (0 <=? k)%Z && forallb (good k) (mat_list A) && forallb (good k) (mat_list B) && (good k (xyz_x W) && good k (xyz_y W) && good k (xyz_z W)) &&
  let a := zmat k A in let b := zmat k B in let o := (2 ^ k)%Z in let q := (o * o)%Z in
  let wx := zent k (xyz_x W) in let wy := zent k (xyz_y W) in let wz := zent k (xyz_z W) in
  let sa := Z.max o (Z.max (sum3 (mx0 a) (mx1 a) (mx2 a)) (Z.max (sum3 (mx3 a) (mx4 a) (mx5 a)) (sum3 (mx6 a) (mx7 a) (mx8 a)))) in
  let sb := Z.max o (Z.max (sum3 (mx0 b) (mx1 b) (mx2 b)) (Z.max (sum3 (mx3 b) (mx4 b) (mx5 b)) (sum3 (mx6 b) (mx7 b) (mx8 b)))) in
  let d := Z.max (resid (mx0 b) (mx1 b) (mx2 b) a q 0 0) (Z.max (resid (mx3 b) (mx4 b) (mx5 b) a 0 q 0) (resid (mx6 b) (mx7 b) (mx8 b) a 0 0 q)) in
  (white_range o wx && white_range o wy && white_range o wz) &&
  (row_range yc (mx0 a) (mx1 a) (mx2 a) wx && row_range yc (mx3 a) (mx4 a) (mx5 a) wy && row_range yc (mx6 a) (mx7 a) (mx8 a) wz) &&
  ((10 * sa <=? 17 * o) && (sb <=? 8 * o) && (10 ^ 12 * (yc * (102 * sa * sb + 10 * d * 2 ^ prec) + 79300 * sb * o) <=? 1000 * D * q * 2 ^ prec))%Z.
Definition via_lab (A B : mat33 fl) (W : xyz fl) (c : rgbf fl) : rgbf fl := @xyz_to_rgb _ ops B (@lab_to_xyz _ ops (@xyz_to_lab _ ops (@rgb_to_xyz _ ops A c) W) W).

Lemma posz_ok a b c x y z o : 0 < o -> IZR a = x * o -> IZR b = y * o -> IZR c = z * o -> IZR (posz a b c) = (Rmax x 0 + Rmax y 0 + Rmax z 0) * o.
Proof.
  intros Ho Ha Hb Hc. assert (M : forall n v, IZR n = v * o -> IZR (Z.max n 0) = Rmax v 0 * o).
  { intros n v E. unfold Rmax. destruct (Rle_dec v 0) as [H|H].
    - rewrite Z.max_r; [ring|]. apply le_IZR. rewrite E. nra.
    - rewrite Z.max_l; [exact E|]. apply le_IZR. rewrite E. nra. }
  unfold posz. rewrite !plus_IZR, (M a x Ha), (M b y Hb), (M c z Hc). ring.
Qed.
Lemma row_range_ok yc a b c w x y z v o : 0 < o -> IZR a = x * o -> IZR b = y * o -> IZR c = z * o -> IZR w = v * o -> row_range yc a b c w = true ->
  100 * (IZR yc / 100 * (Rmax x 0 + Rmax y 0 + Rmax z 0)) <= 1.149 * v /\ 100 * (IZR yc / 100 * (Rmax (- x) 0 + Rmax (- y) 0 + Rmax (- z) 0)) <= 0.149 * v.
Proof.
  intros Ho Ha Hb Hc Hw R. unfold row_range in R. rewrite andb_true_iff, !Z.leb_le in R. destruct R as [R1 R2]. apply IZR_le in R1, R2. rewrite !mult_IZR in R1, R2.
  rewrite (posz_ok a b c x y z o Ho Ha Hb Hc), Hw in R1. rewrite (posz_ok (- a) (- b) (- c) (- x) (- y) (- z) o Ho), Hw in R2 by (rewrite opp_IZR, ?Ha, ?Hb, ?Hc; ring).
  split; apply (Rmult_le_reg_r o); lra.
Qed.
Lemma white_range_ok o w v : 0 < IZR o -> IZR w = v * IZR o -> white_range o w = true -> 50 <= v <= 110.
Proof. intros Ho E R. unfold white_range in R. rewrite andb_true_iff, !Z.leb_le in R. destruct R as [R1 R2]. apply IZR_le in R1, R2. rewrite !mult_IZR in *. split; apply (Rmult_le_reg_r (IZR o)); lra. Qed.

(* the whole trip of one colour *)
Lemma lab_trip k yc D A B W (cr cg cb : fl) : lab_check k yc D A B W = true -> (100 <= yc <= 105)%Z -> is_finite cr = true -> is_finite cg = true -> is_finite cb = true ->
  0 <= B2R cr <= IZR yc / 100 -> 0 <= B2R cg <= IZR yc / 100 -> 0 <= B2R cb <= IZR yc / 100 ->
  let v := via_lab A B W (Rgb cr cg cb) in let e := IZR D / 1000000000000 in
  (is_finite (rgb_r v) = true /\ Rabs (B2R (rgb_r v) - B2R cr) <= e) /\ (is_finite (rgb_g v) = true /\ Rabs (B2R (rgb_g v) - B2R cg) <= e) /\ (is_finite (rgb_b v) = true /\ Rabs (B2R (rgb_b v) - B2R cb) <= e).
Proof.
  intros C HY Fr Fg Fb Br Bg Bb. unfold lab_check in C. rewrite !andb_true_iff in C. destruct C as [[[[K GA] GB] [[GX GY] GZ]] C]. apply Z.leb_le in K.
  destruct (CurveProofs.u24 prec P5) as [U0 U].
  set (o := (2 ^ k)%Z) in *. assert (O1 : (1 <= o)%Z) by (unfold o; assert (0 < 2 ^ k)%Z by (apply Z.pow_pos_nonneg; lia); lia). assert (O2 : 1 <= IZR o) by (apply IZR_le, O1).
  assert (ZA : forall x, In x (mat_list A) -> is_finite x = true /\ IZR (zent k x) = B2R x * IZR o). { intros x I. apply zent_ok; [exact K|]. eapply forallb_forall in GA; eassumption. }
  assert (ZB : forall x, In x (mat_list B) -> is_finite x = true /\ IZR (zent k x) = B2R x * IZR o). { intros x I. apply zent_ok; [exact K|]. eapply forallb_forall in GB; eassumption. }
  destruct W as [WX WY WZ]. cbn [xyz_x xyz_y xyz_z] in *. destruct (zent_ok _ _ k WX K GX) as [FX EX]. destruct (zent_ok _ _ k WY K GY) as [FY EY]. destruct (zent_ok _ _ k WZ K GZ) as [FZ EZ]. fold o in EX, EY, EZ.
  destruct A as [a0 a1 a2 a3 a4 a5 a6 a7 a8], B as [b0 b1 b2 b3 b4 b5 b6 b7 b8]. unfold PropPixel.zmat in C. cbn [mx0 mx1 mx2 mx3 mx4 mx5 mx6 mx7 mx8 mat_list] in *. cbv zeta in C.
  set (sa := Z.max o (Z.max (sum3 (zent k a0) _ _) _)) in C. set (sb := Z.max o (Z.max (sum3 (zent k b0) _ _) _)) in C. set (d := Z.max (resid _ _ _ _ _ _ _) _) in C.
  destruct C as [[[[W0 W1] W2] [[R0 R1] R2]] [[CA CB] CD]]. apply Z.leb_le in CA, CB, CD.
  assert (HA : 1 <= IZR sa / IZR o <= 1.7).
  { assert (IZR o <= IZR sa) by (apply IZR_le; unfold sa; lia). apply IZR_le in CA. rewrite !mult_IZR in CA. split; apply (Rmult_le_reg_r (IZR o)); try lra; unfold Rdiv; rewrite Rmult_assoc, Rinv_l by lra; lra. }
  assert (HB : 1 <= IZR sb / IZR o <= 8).
  { assert (IZR o <= IZR sb) by (apply IZR_le; unfold sb; lia). apply IZR_le in CB. rewrite !mult_IZR in CB. split; apply (Rmult_le_reg_r (IZR o)); try lra; unfold Rdiv; rewrite Rmult_assoc, Rinv_l by lra; lra. }
  assert (RA : forall x y z, In x [a0; a1; a2; a3; a4; a5; a6; a7; a8] -> In y [a0; a1; a2; a3; a4; a5; a6; a7; a8] -> In z [a0; a1; a2; a3; a4; a5; a6; a7; a8] -> (sum3 (zent k x) (zent k y) (zent k z) <= sa)%Z -> Rabs (B2R x) + Rabs (B2R y) + Rabs (B2R z) <= IZR sa / IZR o).
  { intros x y z Ix Iy Iz H. eapply under; [lra|apply sum3_ok; [lra|apply ZA; assumption..]|exact H]. }
  assert (RB : forall x y z, In x [b0; b1; b2; b3; b4; b5; b6; b7; b8] -> In y [b0; b1; b2; b3; b4; b5; b6; b7; b8] -> In z [b0; b1; b2; b3; b4; b5; b6; b7; b8] -> (sum3 (zent k x) (zent k y) (zent k z) <= sb)%Z -> Rabs (B2R x) + Rabs (B2R y) + Rabs (B2R z) <= IZR sb / IZR o).
  { intros x y z Ix Iy Iz H. eapply under; [lra|apply sum3_ok; [lra|apply ZB; assumption..]|exact H]. }
  assert (OO : 0 < IZR o * IZR o) by nra.
  assert (RD : forall x y z (e0 e1 e2 : Z), In x [b0; b1; b2; b3; b4; b5; b6; b7; b8] -> In y [b0; b1; b2; b3; b4; b5; b6; b7; b8] -> In z [b0; b1; b2; b3; b4; b5; b6; b7; b8] ->
    (resid (zent k x) (zent k y) (zent k z) (Mat33 (zent k a0) (zent k a1) (zent k a2) (zent k a3) (zent k a4) (zent k a5) (zent k a6) (zent k a7) (zent k a8)) (e0 * (o * o)) (e1 * (o * o)) (e2 * (o * o)) <= d)%Z ->
    Rabs (B2R x * B2R a0 + B2R y * B2R a3 + B2R z * B2R a6 - IZR e0) + Rabs (B2R x * B2R a1 + B2R y * B2R a4 + B2R z * B2R a7 - IZR e1) + Rabs (B2R x * B2R a2 + B2R y * B2R a5 + B2R z * B2R a8 - IZR e2) <= IZR d / (IZR o * IZR o)).
  { intros x y z e0 e1 e2 Ix Iy Iz H. eapply under; [exact OO| |exact H]. unfold resid. cbn [mx0 mx1 mx2 mx3 mx4 mx5 mx6 mx7 mx8].
    apply sum3_ok; [lra|..]; rewrite minus_IZR, !plus_IZR, !mult_IZR, (proj2 (ZB x Ix)), (proj2 (ZB y Iy)), (proj2 (ZB z Iz)); repeat match goal with |- context [IZR (zent k ?t)] => rewrite (proj2 (ZA t ltac:(cbn [In mat_list mx0 mx1 mx2 mx3 mx4 mx5 mx6 mx7 mx8]; auto 12))) end; ring. }
  assert (NA : forall x, In x [a0; a1; a2; a3; a4; a5; a6; a7; a8] -> is_finite x = true) by (intros x I; apply ZA, I). assert (NB : forall x, In x [b0; b1; b2; b3; b4; b5; b6; b7; b8] -> is_finite x = true) by (intros x I; apply ZB, I).
  set (m := IZR yc / 100) in *. assert (HM : 1 <= m <= 1.05). { destruct HY as [Y1 Y2]. apply IZR_le in Y1, Y2. unfold m. lra. }
  assert (UP : forall x y z w, In x [a0; a1; a2; a3; a4; a5; a6; a7; a8] -> In y [a0; a1; a2; a3; a4; a5; a6; a7; a8] -> In z [a0; a1; a2; a3; a4; a5; a6; a7; a8] -> (sum3 (zent k x) (zent k y) (zent k z) <= sa)%Z ->
     is_finite w = true -> IZR (zent k w) = B2R w * IZR o -> white_range o (zent k w) = true -> row_range yc (zent k x) (zent k y) (zent k z) (zent k w) = true ->
     let X := Bmult mode_NE (fdot prec emax x y z cr cg cb) hundred in let e := B2R x * B2R cr + B2R y * B2R cg + B2R z * B2R cb in
     is_finite X = true /\ Rabs (B2R X - 100 * e) <= 500.3 * u * (IZR sa / IZR o * m) /\ Rabs e <= IZR sa / IZR o * m /\ in_gamut prec emax X w).
  { intros x y z w Ix Iy Iz S Fw Ew Hw Hr. destruct (up_ok x y z cr cg cb _ m (NA x Ix) (NA y Iy) (NA z Iz) Fr Fg Fb (RA x y z Ix Iy Iz S) Br Bg Bb HA HM) as (Q1 & Q2 & Q3). cbv zeta. split; [exact Q1|]. split; [exact Q2|]. split; [exact Q3|].
    pose proof (white_range_ok o _ _ ltac:(lra) Ew Hw) as WR. destruct (row_range_ok yc _ _ _ _ _ _ _ _ (IZR o) ltac:(lra) (proj2 (ZA x Ix)) (proj2 (ZA y Iy)) (proj2 (ZA z Iz)) Ew Hr) as [P1 P2]. fold m in P1, P2.
    eapply in_range; [exact Q1|exact Fw|exact WR| |exact (row_max (B2R x) (B2R y) (B2R z) _ _ _ m Br Bg Bb)|exact P1|exact P2].
    eapply Rle_trans; [exact Q2|]. assert (IZR sa / IZR o * m <= 1.785) by (apply Rle_trans with (1.7 * 1.05); [apply Rmult_le_compat; lra|lra]). assert (u * (IZR sa / IZR o * m) <= u * 1.785) by (apply Rmult_le_compat_l; lra). lra. }
  destruct (UP a0 a1 a2 WX ltac:(cbn [In]; auto 12) ltac:(cbn [In]; auto 12) ltac:(cbn [In]; auto 12) ltac:(unfold sa; lia) FX EX W0 R0) as (X1 & X2 & X3 & X4).
  destruct (UP a3 a4 a5 WY ltac:(cbn [In]; auto 12) ltac:(cbn [In]; auto 12) ltac:(cbn [In]; auto 12) ltac:(unfold sa; lia) FY EY W1 R1) as (Y1 & Y2 & Y3 & Y4).
  destruct (UP a6 a7 a8 WZ ltac:(cbn [In]; auto 12) ltac:(cbn [In]; auto 12) ltac:(cbn [In]; auto 12) ltac:(unfold sa; lia) FZ EZ W2 R2) as (Z1 & Z2 & Z3 & Z4).
  unfold via_lab. change (@rgb_to_xyz _ ops (Mat33 a0 a1 a2 a3 a4 a5 a6 a7 a8) (Rgb cr cg cb)) with
    (Xyz (Bmult mode_NE (fdot prec emax a0 a1 a2 cr cg cb) hundred) (Bmult mode_NE (fdot prec emax a3 a4 a5 cr cg cb) hundred) (Bmult mode_NE (fdot prec emax a6 a7 a8 cr cg cb) hundred)).
  set (X := Bmult mode_NE (fdot prec emax a0 a1 a2 cr cg cb) hundred) in *. set (Y := Bmult mode_NE (fdot prec emax a3 a4 a5 cr cg cb) hundred) in *. set (Z := Bmult mode_NE (fdot prec emax a6 a7 a8 cr cg cb) hundred) in *.
  destruct (round_trip prec emax P5 E5 L lit PW PI LX X Y Z WX WY WZ X4 Y4 Z4) as ((TX1 & TX2) & (TY1 & TY2) & (TZ1 & TZ2)).
  set (c := @lab_to_xyz _ ops _ _) in TX1, TX2, TY1, TY2, TZ1, TZ2 |- *. clearbody c X Y Z. destruct c as [X' Y' Z']. cbn [xyz_x xyz_y xyz_z] in *.
  pose proof (white_range_ok o _ _ ltac:(lra) EX W0) as WRX. pose proof (white_range_ok o _ _ ltac:(lra) EY W1) as WRY. pose proof (white_range_ok o _ _ ltac:(lra) EZ W2) as WRZ.
  assert (MV : forall (P Q w : fl) e s, Rabs (B2R P - B2R Q) <= 72 * u * B2R w -> 50 <= B2R w <= 110 -> Rabs (B2R Q - e) <= s -> Rabs (B2R P - e) <= s + 7920 * u).
  { intros P Q w e s H1 H2 H3. pose proof (near_trans _ _ _ _ _ H1 H3). assert (u * B2R w <= u * 110) by (apply Rmult_le_compat_l; lra). lra. }
  pose proof (MV _ _ _ _ _ TX2 WRX X2) as X5. pose proof (MV _ _ _ _ _ TY2 WRY Y2) as Y5. pose proof (MV _ _ _ _ _ TZ2 WRZ Z2) as Z5.
  set (s := IZR sa / IZR o) in *. set (t := IZR sb / IZR o) in *. assert (SM : 1 <= s * m <= 1.785) by (split; [nra|apply Rle_trans with (1.7 * 1.05); [apply Rmult_le_compat; lra|lra]]).
  set (ex := B2R a0 * B2R cr + _ + _) in *. set (ey := B2R a3 * B2R cr + _ + _) in *. set (ez := B2R a6 * B2R cr + _ + _) in *.
  set (dd := IZR d / (IZR o * IZR o)) in *.
  assert (FIN : 10.2 * u * (s * m * t) + 79.3 * u * t + dd * m <= IZR D / 1000000000000).
  { apply IZR_le in CD. rewrite !mult_IZR, !plus_IZR, !mult_IZR, !plus_IZR, !mult_IZR in CD. rewrite <- !pow_IZR with (n := 12%nat) in CD || idtac. pose proof Hp as PP. red in PP. change (10 ^ 12)%Z with 1000000000000%Z in CD. change 2%Z with (radix_val radix2) in CD. rewrite IZR_Zpower in CD by lia.
    set (p := bpow radix2 prec) in *. assert (UPP : u * p = 1) by (unfold p; rewrite <- bpow_plus; replace (- prec + prec)%Z with 0%Z by ring; reflexivity). assert (P0 : 0 < p) by (apply bpow_gt_0).
    apply (Rmult_le_reg_r (1000 * (IZR o * IZR o) * p * 1000000000000)); [apply Rmult_lt_0_compat; [apply Rmult_lt_0_compat; [lra|exact P0]|lra]|].
    replace ((10.2 * u * (s * m * t) + 79.3 * u * t + dd * m) * (1000 * (IZR o * IZR o) * p * 1000000000000))
      with (1000000000000 * (IZR yc * (102 * IZR sa * IZR sb * (u * p) + 10 * IZR d * p) + 79300 * IZR sb * IZR o * (u * p))) by (unfold s, t, m, dd; q2r; field; lra). rewrite UPP, !Rmult_1_r.
    replace (IZR D / 1000000000000 * (1000 * (IZR o * IZR o) * p * 1000000000000)) with (1000 * IZR D * (IZR o * IZR o) * p) by field. lra. }
  assert (DOWN : forall x y z (e0 e1 e2 : BinNums.Z), In x [b0; b1; b2; b3; b4; b5; b6; b7; b8] -> In y [b0; b1; b2; b3; b4; b5; b6; b7; b8] -> In z [b0; b1; b2; b3; b4; b5; b6; b7; b8] -> (sum3 (zent k x) (zent k y) (zent k z) <= sb)%Z ->
    (resid (zent k x) (zent k y) (zent k z) (Mat33 (zent k a0) (zent k a1) (zent k a2) (zent k a3) (zent k a4) (zent k a5) (zent k a6) (zent k a7) (zent k a8)) (e0 * (o * o)) (e1 * (o * o)) (e2 * (o * o)) <= d)%Z ->
    let v := fdot prec emax x y z (Bdiv mode_NE X' hundred) (Bdiv mode_NE Y' hundred) (Bdiv mode_NE Z' hundred) in
    is_finite v = true /\ Rabs (B2R v - (IZR e0 * B2R cr + IZR e1 * B2R cg + IZR e2 * B2R cb)) <= IZR D / 1000000000000).
  { intros x y z e0 e1 e2 Ix Iy Iz S1 S2. destruct (down_ok x y z X' Y' Z' ex ey ez (s * m) t (NB x Ix) (NB y Iy) (NB z Iz) TX1 TY1 TZ1 (RB x y z Ix Iy Iz S1) HB SM X3 Y3 Z3 X5 Y5 Z5) as [Q1 Q2]. cbv zeta. split; [exact Q1|].
    pose proof (RD x y z e0 e1 e2 Ix Iy Iz S2) as Q3. assert (Cr : Rabs (B2R cr) <= m) by (apply Rabs_le; lra). assert (Cg : Rabs (B2R cg) <= m) by (apply Rabs_le; lra). assert (Cb : Rabs (B2R cb) <= m) by (apply Rabs_le; lra).
    pose proof (dot3 _ _ _ _ _ _ _ _ Cr Cg Cb Q3 ltac:(lra)) as Q4. fold dd in Q4.
    match type of Q4 with Rabs ?k <= _ => replace k with ((B2R x * ex + B2R y * ey + B2R z * ez) - (IZR e0 * B2R cr + IZR e1 * B2R cg + IZR e2 * B2R cb)) in Q4 by (unfold ex, ey, ez; ring) end.
    pose proof (near_trans _ _ _ _ _ Q2 Q4). lra. }
  cbv zeta. unfold xyz_to_rgb, mat_mul_xyz, xyz_div, xyz_from_scalar. cbn [rgb_r rgb_g rgb_b xyz_x xyz_y xyz_z mx0 mx1 mx2 mx3 mx4 mx5 mx6 mx7 mx8].
  split; [|split].
  - destruct (DOWN b0 b1 b2 1%Z 0%Z 0%Z ltac:(cbn [In]; auto 12) ltac:(cbn [In]; auto 12) ltac:(cbn [In]; auto 12) ltac:(unfold sb; lia) ltac:(rewrite Z.mul_1_l, Z.mul_0_l; unfold d; apply Z.le_max_l)) as [Q1 Q2].
    replace (1 * B2R cr + 0 * B2R cg + 0 * B2R cb) with (B2R cr) in Q2 by ring. split; [exact Q1|exact Q2].
  - destruct (DOWN b3 b4 b5 0%Z 1%Z 0%Z ltac:(cbn [In]; auto 12) ltac:(cbn [In]; auto 12) ltac:(cbn [In]; auto 12) ltac:(unfold sb; lia) ltac:(rewrite Z.mul_1_l, Z.mul_0_l; unfold d; lia)) as [Q1 Q2].
    replace (0 * B2R cr + 1 * B2R cg + 0 * B2R cb) with (B2R cg) in Q2 by ring. split; [exact Q1|exact Q2].
  - destruct (DOWN b6 b7 b8 0%Z 0%Z 1%Z ltac:(cbn [In]; auto 12) ltac:(cbn [In]; auto 12) ltac:(cbn [In]; auto 12) ltac:(unfold sb; lia) ltac:(rewrite Z.mul_1_l, Z.mul_0_l; unfold d; lia)) as [Q1 Q2].
    replace (0 * B2R cr + 0 * B2R cg + 1 * B2R cb) with (B2R cb) in Q2 by ring. split; [exact Q1|exact Q2].
Qed.
(* and of one pixel, between the decoding and the encoding curve of its space *)
Lemma lab_pixel k yc D N A B W dec enc kr kg kb : lab_check k yc D A B W = true -> (100 <= yc <= 105)%Z -> channel_ok prec emax L lit N dec enc (IZR yc / 100) 0 (IZR D / 1000000000000) ->
  (0 <= kr <= N)%Z -> (0 <= kg <= N)%Z -> (0 <= kb <= N)%Z ->
  let v := via_lab A B W (Rgb (dec (@dequantize _ ops N kr)) (dec (@dequantize _ ops N kg)) (dec (@dequantize _ ops N kb))) in
  @rgb_to_uint _ ops N (Rgb (enc (rgb_r v)) (enc (rgb_g v)) (enc (rgb_b v))) = Rgb kr kg kb.
Proof.
  intros C HY CH Hr Hg Hb. destruct (CH kr Hr) as (Fr & Br & Vr). destruct (CH kg Hg) as (Fg & Bg & Vg). destruct (CH kb Hb) as (Fb & Bb & Vb).
  destruct (lab_trip k yc D A B W _ _ _ C HY Fr Fg Fb Br Bg Bb) as ((F1 & E1) & (F2 & E2) & (F3 & E3)). cbv zeta. set (v := via_lab A B W _) in *. unfold rgb_to_uint. cbn [rgb_r rgb_g rgb_b].
  rewrite (Vr _ F1), (Vg _ F2), (Vb _ F3); [reflexivity|..]; rewrite Rmult_0_l, Rplus_0_l; assumption.
Qed.
End T.
