(* C86: integer pixels survive the trip through XYZ in the code's own arithmetic *)
From Coq Require Import Reals ZArith QArith Qreals Lra Lia Bool List.
From Flocq Require Import Core BinarySingleNaN.
From Verif Require Import Outcome RealOps MathModel ColorModel AdaptModel SpaceModel IllumModel TransformModel XReal FloatInst FloatProofs ErrProofs.
Import ListNotations.
Open Scope R_scope.

(* ---- the error of one trip, over R ---- *)
Lemma abs3 a b c x y z m : Rabs x <= m -> Rabs y <= m -> Rabs z <= m ->
  Rabs (a * x) + Rabs (b * y) + Rabs (c * z) <= (Rabs a + Rabs b + Rabs c) * m.
Proof.
  intros X Y Z. rewrite !Rabs_mult. assert (Rabs a * Rabs x <= Rabs a * m) by (apply Rmult_le_compat_l; [apply Rabs_pos|assumption]).
  assert (Rabs b * Rabs y <= Rabs b * m) by (apply Rmult_le_compat_l; [apply Rabs_pos|assumption]). assert (Rabs c * Rabs z <= Rabs c * m) by (apply Rmult_le_compat_l; [apply Rabs_pos|assumption]). lra.
Qed.
Lemma dot3 a b c x y z m s : Rabs x <= m -> Rabs y <= m -> Rabs z <= m -> Rabs a + Rabs b + Rabs c <= s -> 0 <= m -> Rabs (a * x + b * y + c * z) <= s * m.
Proof.
  intros X Y Z A M. pose proof (abs3 a b c x y z m X Y Z). assert ((Rabs a + Rabs b + Rabs c) * m <= s * m) by (apply Rmult_le_compat_r; assumption).
  pose proof (Rabs_triang (a * x + b * y) (c * z)). pose proof (Rabs_triang (a * x) (b * y)). lra.
Qed.

Section Trip.
Context (prec emax : Z) {Hp : Prec_gt_0 prec} {He : Prec_lt_emax prec emax}.
Notation fl := (binary_float prec emax).
Notation u := (bpow radix2 (- prec)).
Notation eta := (bpow radix2 (2 - emax - prec)).
Notation rnd := (round radix2 (SpecFloat.fexp prec emax) ZnearestE).
Context (P5 : (24 <= prec)%Z) (E5 : (100 <= emax)%Z) (hundred : fl) (Fh : is_finite hundred = true) (Vh : B2R hundred = 100).

Lemma u24 : 0 < u <= / 10000000.
Proof. split; [apply bpow_gt_0|]. apply Rle_trans with (bpow radix2 (-24)); [apply bpow_le; lia|]. change (/ 16777216 <= / 10000000). apply Rinv_le; lra. Qed.
Lemma eta_u : 0 < eta <= u / 10000000.
Proof.
  split; [apply bpow_gt_0|]. replace (2 - emax - prec)%Z with (- prec + (2 - emax))%Z by ring. rewrite bpow_plus. apply Rmult_le_compat_l; [apply bpow_ge_0|].
  apply Rle_trans with (bpow radix2 (-24)); [apply bpow_le; lia|]. change (/ 16777216 <= / 10000000). apply Rinv_le; lra.
Qed.
Lemma big : 1000 <= bpow radix2 (emax - 1).
Proof. apply Rle_trans with (bpow radix2 10); [change (1000 <= 1024); lra|apply bpow_le; lia]. Qed.
Lemma big2 : bpow radix2 (emax - 1) <= bpow radix2 emax.
Proof. apply bpow_le. lia. Qed.

(* times 100, then divided by 100 *)
Definition there (y : fl) : fl := Bdiv mode_NE (Bmult mode_NE y hundred) hundred.
Lemma there_ok y M : 1 <= M <= 2 -> is_finite y = true -> Rabs (B2R y) <= M -> is_finite (there y) = true /\ Rabs (B2R (there y) - B2R y) <= 2.1 * u * M.
Proof.
  intros HM F H. destruct u24 as [U0 U]. destruct eta_u as [T0 T]. pose proof big as G. pose proof big2 as G2.
  pose proof (rnd_any prec emax (B2R y * 100)) as R1. set (v := rnd (B2R y * 100)) in *.
  assert (A1 : Rabs (B2R y * 100) <= 100 * M) by (rewrite Rabs_mult, (Rabs_pos_eq 100) by lra; lra).
  assert (UM : u * Rabs (B2R y * 100) <= u * (100 * M)) by (apply Rmult_le_compat_l; lra).
  assert (Uh : u * (100 * M) <= / 1000) by nra.
  assert (A2 : Rabs v <= 100 * M + / 100). { replace v with (B2R y * 100 + (v - B2R y * 100)) by ring. pose proof (Rabs_triang (B2R y * 100) (v - B2R y * 100)). lra. }
  assert (Fm : is_finite (Bmult mode_NE y hundred) = true). { apply mult_small; try assumption. rewrite Vh. fold v. lra. }
  pose proof (mult_fin prec emax _ _ Fm) as (_ & _ & Em). rewrite Vh in Em. fold v in Em.
  pose proof (Bdiv_correct prec emax _ _ mode_NE (Bmult mode_NE y hundred) hundred) as D. cbn [round_mode] in D. rewrite Vh, Em in D. specialize (D ltac:(lra)).
  pose proof (rnd_any prec emax (v / 100)) as R2. set (w := rnd (v / 100)) in *.
  assert (A3 : Rabs (v / 100) <= M + / 10000). { unfold Rdiv. rewrite Rabs_mult, (Rabs_pos_eq (/ 100)) by lra. lra. }
  assert (UM2 : u * Rabs (v / 100) <= u * (M + / 10000)) by (apply Rmult_le_compat_l; lra).
  assert (Uh2 : u * (M + / 10000) <= / 1000) by nra.
  assert (A4 : Rabs w <= M + / 100). { replace w with (v / 100 + (w - v / 100)) by ring. pose proof (Rabs_triang (v / 100) (w - v / 100)). lra. }
  rewrite Rlt_bool_true in D by lra. destruct D as (D1 & D2 & _). fold w in D1. unfold there. rewrite D2, D1. split; [exact Fm|].
  replace (w - B2R y) with ((w - v / 100) + (v - B2R y * 100) / 100) by field. eapply Rle_trans; [apply Rabs_triang|].
  assert (Rabs ((v - B2R y * 100) / 100) <= (u * (100 * M) + eta) / 100) by (unfold Rdiv; rewrite Rabs_mult, (Rabs_pos_eq (/ 100)) by lra; lra). nra.
Qed.

Definition ffin (m : mat33 fl) : bool := forallb (fun x => is_finite x) (mat_list m).
Definition trip1 (m : mat33 fl) (r g b : fl) : fl * fl * fl :=
  (fdot prec emax (mx0 m) (mx1 m) (mx2 m) r g b, fdot prec emax (mx3 m) (mx4 m) (mx5 m) r g b, fdot prec emax (mx6 m) (mx7 m) (mx8 m) r g b).
Lemma row_ok a b c x y z s m : is_finite a = true -> is_finite b = true -> is_finite c = true -> is_finite x = true -> is_finite y = true -> is_finite z = true ->
  Rabs (B2R a) + Rabs (B2R b) + Rabs (B2R c) <= s -> Rabs (B2R x) <= m -> Rabs (B2R y) <= m -> Rabs (B2R z) <= m -> 1 <= s <= 8 -> 1 <= m <= 2 ->
  is_finite (fdot prec emax a b c x y z) = true /\ Rabs (B2R (fdot prec emax a b c x y z) - (B2R a * B2R x + B2R b * B2R y + B2R c * B2R z)) <= 4.001 * u * (s * m).
Proof.
  intros Fa Fb Fc Fx Fy Fz A X Y Z Bs Bm. destruct u24 as [U0 U]. destruct eta_u as [T0 T]. pose proof big as G.
  assert (AD : adot prec emax a b c x y z <= s * m). { unfold adot. eapply Rle_trans; [apply (abs3 _ _ _ _ _ _ m); assumption|]. apply Rmult_le_compat_r; lra. }
  assert (SM : 1 <= s * m <= 16) by (clear - Bs Bm; nra).
  assert (F : is_finite (fdot prec emax a b c x y z) = true) by (apply fdot_finite; try assumption; [lia|lra]). split; [exact F|].
  pose proof (fdot_err prec emax a b c x y z ltac:(lia) F) as H. unfold edot in H. eapply Rle_trans; [exact H|].
  assert (4 * u * adot prec emax a b c x y z <= 4 * u * (s * m)) by (apply Rmult_le_compat_l; lra). assert (u * 1 <= u * (s * m)) by (apply Rmult_le_compat_l; lra). lra.
Qed.

(* there and back, for one row b of the second matrix whose product with the first is near the unit row e *)
Lemma trip (A : mat33 fl) (b0 b1 b2 r g b : fl) (e0 e1 e2 sa sb d : R) : ffin A = true -> is_finite b0 = true -> is_finite b1 = true -> is_finite b2 = true ->
  is_finite r = true -> is_finite g = true -> is_finite b = true -> 0 <= B2R r <= 1 -> 0 <= B2R g <= 1 -> 0 <= B2R b <= 1 -> 1 <= sa <= 1.9 -> 1 <= sb <= 8 ->
  Rabs (B2R (mx0 A)) + Rabs (B2R (mx1 A)) + Rabs (B2R (mx2 A)) <= sa -> Rabs (B2R (mx3 A)) + Rabs (B2R (mx4 A)) + Rabs (B2R (mx5 A)) <= sa ->
  Rabs (B2R (mx6 A)) + Rabs (B2R (mx7 A)) + Rabs (B2R (mx8 A)) <= sa -> Rabs (B2R b0) + Rabs (B2R b1) + Rabs (B2R b2) <= sb ->
  Rabs (B2R b0 * B2R (mx0 A) + B2R b1 * B2R (mx3 A) + B2R b2 * B2R (mx6 A) - e0) + Rabs (B2R b0 * B2R (mx1 A) + B2R b1 * B2R (mx4 A) + B2R b2 * B2R (mx7 A) - e1)
    + Rabs (B2R b0 * B2R (mx2 A) + B2R b1 * B2R (mx5 A) + B2R b2 * B2R (mx8 A) - e2) <= d ->
  let '(x, y, z) := trip1 A r g b in let v := fdot prec emax b0 b1 b2 (there x) (there y) (there z) in
  is_finite v = true /\ Rabs (B2R v - (e0 * B2R r + e1 * B2R g + e2 * B2R b)) <= 11 * u * (sa * sb) + d.
Proof.
  intros FA F0 F1 F2 Fr Fg Fb Hr Hg Hb HA HB A0 A1 A2 B D. unfold trip1. destruct u24 as [U0 U].
  unfold ffin, mat_list in FA. cbn [forallb] in FA. rewrite !andb_true_iff in FA. destruct FA as (N0 & N1 & N2 & N3 & N4 & N5 & N6 & N7 & N8 & _).
  assert (Cr : Rabs (B2R r) <= 1) by (apply Rabs_le; lra). assert (Cg : Rabs (B2R g) <= 1) by (apply Rabs_le; lra). assert (Cb : Rabs (B2R b) <= 1) by (apply Rabs_le; lra).
  destruct (row_ok _ _ _ r g b sa 1 N0 N1 N2 Fr Fg Fb A0 Cr Cg Cb ltac:(lra) ltac:(lra)) as [X1 X2].
  destruct (row_ok _ _ _ r g b sa 1 N3 N4 N5 Fr Fg Fb A1 Cr Cg Cb ltac:(lra) ltac:(lra)) as [Y1 Y2].
  destruct (row_ok _ _ _ r g b sa 1 N6 N7 N8 Fr Fg Fb A2 Cr Cg Cb ltac:(lra) ltac:(lra)) as [Z1 Z2].
  set (x := fdot _ _ _ _ _ _ _ _) in X1, X2 |- *. set (y := fdot _ _ _ _ _ _ _ _) in Y1, Y2 |- *. set (z := fdot _ _ _ _ _ _ _ _) in Z1, Z2 |- *. clearbody x y z.
  pose proof (dot3 _ _ _ _ _ _ _ _ Cr Cg Cb A0 ltac:(lra)) as X3. pose proof (dot3 _ _ _ _ _ _ _ _ Cr Cg Cb A1 ltac:(lra)) as Y3. pose proof (dot3 _ _ _ _ _ _ _ _ Cr Cg Cb A2 ltac:(lra)) as Z3.
  set (ex := B2R (mx0 A) * B2R r + _ + _) in X2, X3. set (ey := B2R (mx3 A) * B2R r + _ + _) in Y2, Y3. set (ez := B2R (mx6 A) * B2R r + _ + _) in Z2, Z3.
  assert (UA : 0 <= u * sa <= sa / 10000000) by (clear - U0 U HA; nra).
  assert (S : forall w e : R, Rabs (w - e) <= 4.001 * u * (sa * 1) -> Rabs e <= sa * 1 -> Rabs w <= 1.000001 * sa). { intros w e H1 H2. replace w with ((w - e) + e) by ring. pose proof (Rabs_triang (w - e) e). lra. }
  pose proof (S _ _ X2 X3) as X4. pose proof (S _ _ Y2 Y3) as Y4. pose proof (S _ _ Z2 Z3) as Z4.
  destruct (there_ok x (1.000001 * sa) ltac:(lra) X1 X4) as [X5 X6]. destruct (there_ok y (1.000001 * sa) ltac:(lra) Y1 Y4) as [Y5 Y6]. destruct (there_ok z (1.000001 * sa) ltac:(lra) Z1 Z4) as [Z5 Z6].
  assert (S2 : forall w e f : R, Rabs (w - e) <= 2.1 * u * (1.000001 * sa) -> Rabs (e - f) <= 4.001 * u * (sa * 1) -> Rabs (w - f) <= 6.102 * (u * sa)). { intros w e f H1 H2. replace (w - f) with ((w - e) + (e - f)) by ring. pose proof (Rabs_triang (w - e) (e - f)). lra. }
  assert (S3 : forall w e : R, Rabs (w - e) <= 2.1 * u * (1.000001 * sa) -> Rabs e <= 1.000001 * sa -> Rabs w <= 1.000002 * sa). { intros w e H1 H2. replace w with ((w - e) + e) by ring. pose proof (Rabs_triang (w - e) e). lra. }
  pose proof (S2 _ _ _ X6 X2) as X7. pose proof (S2 _ _ _ Y6 Y2) as Y7. pose proof (S2 _ _ _ Z6 Z2) as Z7.
  pose proof (S3 _ _ X6 X4) as X8. pose proof (S3 _ _ Y6 Y4) as Y8. pose proof (S3 _ _ Z6 Z4) as Z8.
  destruct (row_ok b0 b1 b2 (there x) (there y) (there z) sb (1.000002 * sa) F0 F1 F2 X5 Y5 Z5 B X8 Y8 Z8 HB ltac:(lra)) as [V1 V2].
  cbv zeta. split; [exact V1|]. set (v := fdot _ _ _ _ _ _ _ _) in V2 |- *. set (wx := B2R (there x)) in *. set (wy := B2R (there y)) in *. set (wz := B2R (there z)) in *. clearbody v wx wy wz.
  pose proof (dot3 (B2R b0) (B2R b1) (B2R b2) (wx - ex) (wy - ey) (wz - ez) (6.102 * (u * sa)) sb X7 Y7 Z7 B ltac:(lra)) as Q.
  pose proof (dot3 _ _ _ _ _ _ _ _ Cr Cg Cb D ltac:(lra)) as K.
  match type of Q with Rabs ?q <= _ => match type of K with Rabs ?k <= _ => match type of V2 with Rabs ?p <= _ =>
    replace (B2R v - (e0 * B2R r + e1 * B2R g + e2 * B2R b)) with (p + q + k) by (unfold ex, ey, ez; ring); pose proof (Rabs_triang (p + q) k); pose proof (Rabs_triang p q) end end end.
  assert (0 <= u * (sa * sb)) by (clear - U0 HA HB; apply Rmult_le_pos; [lra|nra]). lra.
Qed.

(* rounding to the nearest code, with the whole half step as the margin *)
Lemma quantize_half (L : libm fl) (lit : Q -> fl) N k (x : fl) : (0 < N <= 2 ^ prec)%Z -> (0 <= k <= N)%Z -> is_finite x = true ->
  Rabs (B2R x * IZR N - IZR k) + IZR N * u < / 2 -> @quantize _ (b_ops prec emax L lit) N x = k.
Proof.
  intros HN Hk Fx Hx. assert (Nx : is_nan x = false) by (destruct x; try discriminate; reflexivity).
  destruct (quantize_spec prec emax L lit N x HN Nx) as [E _]. rewrite E.
  assert (N1 : 1 <= IZR N) by (apply IZR_le; lia). assert (K0 : 0 <= IZR k) by (apply IZR_le; lia). assert (K1 : IZR k <= IZR N) by (apply IZR_le; lia).
  pose proof (cl_01 prec emax x) as C01. set (h := / 2 - IZR N * u) in *. assert (Hx' : Rabs (B2R x * IZR N - IZR k) < h) by (unfold h; lra).
  assert (C : Rabs (cl prec emax x * IZR N - IZR k) < h).
  { apply Rabs_def2 in Hx'. apply Rabs_def1; unfold cl; rewrite ev_fin by exact Fx; unfold Rmax, Rmin; destruct (Rle_dec 1 (B2R x)); destruct (Rle_dec _ _); nra. }
  apply Znearest_imp. assert (A : Rabs (rnd (cl prec emax x * IZR N) - cl prec emax x * IZR N) <= IZR N * u).
  { apply (rnd_err prec emax _ (IZR N)); [assumption|]. rewrite Rabs_right; nra. }
  replace (rnd (cl prec emax x * IZR N) - IZR k) with ((rnd (cl prec emax x * IZR N) - cl prec emax x * IZR N) + (cl prec emax x * IZR N - IZR k)) by ring.
  eapply Rle_lt_trans; [apply Rabs_triang|]. unfold h in C. lra.
Qed.

(* ---- a check on the matrices, in integers ---- *)
(* [good k x]: x is finite and a multiple of 2^-k; [zent k x] is then x * 2^k *)
Definition good (k : Z) (x : fl) : bool := match x with B754_zero _ => true | B754_finite _ _ e _ => (0 <=? e + k)%Z | _ => false end.
Definition zent (k : Z) (x : fl) : Z := match x with B754_finite s m e _ => cond_Zopp s (Zpos m) * 2 ^ (e + k) | _ => 0 end%Z.
Lemma zent_ok k x : (0 <= k)%Z -> good k x = true -> is_finite x = true /\ IZR (zent k x) = B2R x * IZR (2 ^ k).
Proof.
  intros K G. destruct x as [s|s| |s m e B]; try discriminate.
  - split; [reflexivity|]. cbn [zent B2R]. ring.
  - split; [reflexivity|]. cbn [good] in G. apply Z.leb_le in G. cbn [zent B2R]. unfold F2R. cbn [Fnum Fexp]. rewrite mult_IZR. change 2%Z with (radix_val radix2). rewrite !IZR_Zpower by lia. rewrite bpow_plus. ring.
Qed.
Definition zmat (k : Z) (m : mat33 fl) : mat33 Z :=
  Mat33 (zent k (mx0 m)) (zent k (mx1 m)) (zent k (mx2 m)) (zent k (mx3 m)) (zent k (mx4 m)) (zent k (mx5 m)) (zent k (mx6 m)) (zent k (mx7 m)) (zent k (mx8 m)).
Definition sum3 (a b c : Z) : Z := (Z.abs a + Z.abs b + Z.abs c)%Z.
Definition resid (b0 b1 b2 : Z) (a : mat33 Z) (e0 e1 e2 : Z) : Z :=
  sum3 (b0 * mx0 a + b1 * mx3 a + b2 * mx6 a - e0) (b0 * mx1 a + b1 * mx4 a + b2 * mx7 a - e1) (b0 * mx2 a + b1 * mx5 a + b2 * mx8 a - e2).
Definition pixel_ok (k N : Z) (A B : mat33 fl) : bool :=
  (0 <=? k)%Z && forallb (good k) (mat_list A) && forallb (good k) (mat_list B) &&
  let a := zmat k A in let b := zmat k B in let o := (2 ^ k)%Z in let q := (o * o)%Z in
  let sa := Z.max o (Z.max (sum3 (mx0 a) (mx1 a) (mx2 a)) (Z.max (sum3 (mx3 a) (mx4 a) (mx5 a)) (sum3 (mx6 a) (mx7 a) (mx8 a)))) in
  let sb := Z.max o (Z.max (sum3 (mx0 b) (mx1 b) (mx2 b)) (Z.max (sum3 (mx3 b) (mx4 b) (mx5 b)) (sum3 (mx6 b) (mx7 b) (mx8 b)))) in
  let d := Z.max (resid (mx0 b) (mx1 b) (mx2 b) a q 0 0) (Z.max (resid (mx3 b) (mx4 b) (mx5 b) a 0 q 0) (resid (mx6 b) (mx7 b) (mx8 b) a 0 0 q)) in
  ((10 * sa <=? 19 * o) && (sb <=? 8 * o) && (100 * N * (11 * sa * sb + d * 2 ^ prec + 2 * q) <=? 49 * q * 2 ^ prec))%Z.

Lemma sum3_ok a b c x y z o : (0 <= o)%R -> IZR a = x * o -> IZR b = y * o -> IZR c = z * o -> IZR (sum3 a b c) = (Rabs x + Rabs y + Rabs z) * o.
Proof. intros Ho Ha Hb Hc. unfold sum3. rewrite !plus_IZR, !abs_IZR, Ha, Hb, Hc, !Rabs_mult, (Rabs_pos_eq o Ho). ring. Qed.
Lemma under a o x m : 0 < o -> IZR a = x * o -> (a <= m)%Z -> x <= IZR m / o.
Proof. intros Ho E H. apply IZR_le in H. apply (Rmult_le_reg_r o); [exact Ho|]. unfold Rdiv. rewrite Rmult_assoc, Rinv_l by lra. lra. Qed.

Lemma pixel_trip (k N : Z) (A B : mat33 fl) (kr kg kb : Z) (L : libm fl) (lit : Q -> fl) : lit 100.0%Q = hundred -> (0 < N <= 2 ^ prec)%Z -> pixel_ok k N A B = true ->
  (0 <= kr <= N)%Z -> (0 <= kg <= N)%Z -> (0 <= kb <= N)%Z ->
  let O := b_ops prec emax L lit in
  @rgb_to_uint _ O N (@xyz_to_rgb _ O B (@rgb_to_xyz _ O A (@rgb_of_uint _ O N (Rgb kr kg kb)))) = Rgb kr kg kb.
Proof.
  intros Hl HN C Hr Hg Hb O. unfold pixel_ok in C. rewrite !andb_true_iff in C. destruct C as [[[K GA] GB] C]. apply Z.leb_le in K.
  set (o := (2 ^ k)%Z) in *. assert (O1 : (1 <= o)%Z) by (unfold o; assert (0 < 2 ^ k)%Z by (apply Z.pow_pos_nonneg; lia); lia).
  assert (O2 : 1 <= IZR o) by (apply IZR_le, O1).
  assert (FA : ffin A = true). { unfold ffin. apply forallb_forall. intros x I. apply (zent_ok k); [exact K|]. eapply forallb_forall in GA; eassumption. }
  assert (FB : ffin B = true). { unfold ffin. apply forallb_forall. intros x I. apply (zent_ok k); [exact K|]. eapply forallb_forall in GB; eassumption. }
  assert (ZA : forall x, In x (mat_list A) -> IZR (zent k x) = B2R x * IZR o). { intros x I. apply zent_ok; [exact K|]. eapply forallb_forall in GA; eassumption. }
  assert (ZB : forall x, In x (mat_list B) -> IZR (zent k x) = B2R x * IZR o). { intros x I. apply zent_ok; [exact K|]. eapply forallb_forall in GB; eassumption. }
  pose proof FB as FB'. unfold ffin, mat_list in FB'. cbn [forallb] in FB'. rewrite !andb_true_iff in FB'. destruct FB' as (N0 & N1 & N2 & N3 & N4 & N5 & N6 & N7 & N8 & _).
  destruct A as [a0 a1 a2 a3 a4 a5 a6 a7 a8], B as [b0 b1 b2 b3 b4 b5 b6 b7 b8]. unfold zmat in C. cbn [mx0 mx1 mx2 mx3 mx4 mx5 mx6 mx7 mx8 mat_list] in *.
  cbv zeta in C.
  set (sa := Z.max o (Z.max (sum3 (zent k a0) _ _) _)) in C. set (sb := Z.max o (Z.max (sum3 (zent k b0) _ _) _)) in C. set (d := Z.max (resid _ _ _ _ _ _ _) _) in C.
  rewrite !Z.leb_le in C. destruct C as [[CA CB] CD].
  assert (HA : 1 <= IZR sa / IZR o <= 1.9).
  { assert (IZR o <= IZR sa) by (apply IZR_le; unfold sa; lia). apply IZR_le in CA. rewrite !mult_IZR in CA. split; apply (Rmult_le_reg_r (IZR o)); try lra; unfold Rdiv; rewrite Rmult_assoc, Rinv_l by lra; lra. }
  assert (HB : 1 <= IZR sb / IZR o <= 8).
  { assert (IZR o <= IZR sb) by (apply IZR_le; unfold sb; lia). apply IZR_le in CB. rewrite !mult_IZR in CB. split; apply (Rmult_le_reg_r (IZR o)); try lra; unfold Rdiv; rewrite Rmult_assoc, Rinv_l by lra; lra. }
  assert (RA : forall x y z, In x [a0; a1; a2; a3; a4; a5; a6; a7; a8] -> In y [a0; a1; a2; a3; a4; a5; a6; a7; a8] -> In z [a0; a1; a2; a3; a4; a5; a6; a7; a8] -> (sum3 (zent k x) (zent k y) (zent k z) <= sa)%Z -> Rabs (B2R x) + Rabs (B2R y) + Rabs (B2R z) <= IZR sa / IZR o).
  { intros x y z Ix Iy Iz H. eapply under; [lra|apply sum3_ok; [lra|apply ZA; assumption..]|exact H]. }
  assert (RB : forall x y z, In x [b0; b1; b2; b3; b4; b5; b6; b7; b8] -> In y [b0; b1; b2; b3; b4; b5; b6; b7; b8] -> In z [b0; b1; b2; b3; b4; b5; b6; b7; b8] -> (sum3 (zent k x) (zent k y) (zent k z) <= sb)%Z -> Rabs (B2R x) + Rabs (B2R y) + Rabs (B2R z) <= IZR sb / IZR o).
  { intros x y z Ix Iy Iz H. eapply under; [lra|apply sum3_ok; [lra|apply ZB; assumption..]|exact H]. }
  assert (OO : 0 < IZR o * IZR o) by nra.
  assert (RD : forall x y z (e0 e1 e2 : Z), In x [b0; b1; b2; b3; b4; b5; b6; b7; b8] -> In y [b0; b1; b2; b3; b4; b5; b6; b7; b8] -> In z [b0; b1; b2; b3; b4; b5; b6; b7; b8] ->
    (resid (zent k x) (zent k y) (zent k z) (Mat33 (zent k a0) (zent k a1) (zent k a2) (zent k a3) (zent k a4) (zent k a5) (zent k a6) (zent k a7) (zent k a8)) (e0 * (o * o)) (e1 * (o * o)) (e2 * (o * o)) <= d)%Z ->
    Rabs (B2R x * B2R a0 + B2R y * B2R a3 + B2R z * B2R a6 - IZR e0) + Rabs (B2R x * B2R a1 + B2R y * B2R a4 + B2R z * B2R a7 - IZR e1) + Rabs (B2R x * B2R a2 + B2R y * B2R a5 + B2R z * B2R a8 - IZR e2) <= IZR d / (IZR o * IZR o)).
  { intros x y z e0 e1 e2 Ix Iy Iz H. eapply under; [exact OO| |exact H]. unfold resid. cbn [mx0 mx1 mx2 mx3 mx4 mx5 mx6 mx7 mx8].
    apply sum3_ok; [lra|..]; rewrite minus_IZR, !plus_IZR, !mult_IZR, (ZB x Ix), (ZB y Iy), (ZB z Iz) , !ZA by (cbn [In mat_list mx0 mx1 mx2 mx3 mx4 mx5 mx6 mx7 mx8]; auto 12); ring. }
  destruct (dequantize_spec prec emax L lit N kr HN Hr) as (Fr & Vr & Br). destruct (dequantize_spec prec emax L lit N kg HN Hg) as (Fg & Vg & Bg). destruct (dequantize_spec prec emax L lit N kb HN Hb) as (Fb & Vb & Bb).
  pose proof (dequantize_err prec emax L lit N kr HN Hr) as Er. pose proof (dequantize_err prec emax L lit N kg HN Hg) as Eg. pose proof (dequantize_err prec emax L lit N kb HN Hb) as Eb.
  rewrite <- Vr in Br. rewrite <- Vg in Bg. rewrite <- Vb in Bb.
  assert (NP : 0 < IZR N) by (apply IZR_lt; lia).
  assert (FIN : IZR N * (11 * u * (IZR sa / IZR o * (IZR sb / IZR o)) + IZR d / (IZR o * IZR o)) + 2 * (IZR N * u) <= 0.49).
  { apply IZR_le in CD. rewrite !mult_IZR, !plus_IZR, !mult_IZR in CD. pose proof Hp as PP. red in PP. change 2%Z with (radix_val radix2) in CD. rewrite IZR_Zpower in CD by lia.
    set (p := bpow radix2 prec) in *. assert (UP : u * p = 1) by (unfold p; rewrite <- bpow_plus; replace (- prec + prec)%Z with 0%Z by ring; reflexivity). assert (P0 : 0 < p) by (apply bpow_gt_0).
    apply (Rmult_le_reg_r (100 * (IZR o * IZR o) * p)); [nra|].
    replace ((IZR N * (11 * u * (IZR sa / IZR o * (IZR sb / IZR o)) + IZR d / (IZR o * IZR o)) + 2 * (IZR N * u)) * (100 * (IZR o * IZR o) * p))
      with (100 * IZR N * (11 * IZR sa * IZR sb * (u * p) + IZR d * p + 2 * (IZR o * IZR o) * (u * p))) by (field; lra). rewrite UP. rewrite !Rmult_1_r. change (IZR (radix_val radix2)) with 2 in CD. lra. }
  assert (Fin : forall (c v : fl) kc, (0 <= kc <= N)%Z -> Rabs (B2R c * IZR N - IZR kc) <= IZR N * u -> is_finite v = true -> Rabs (B2R v - B2R c) <= 11 * u * (IZR sa / IZR o * (IZR sb / IZR o)) + IZR d / (IZR o * IZR o) ->
    @quantize _ O N v = kc).
  { intros c v kc Hk Hc Fv Hv. apply quantize_half; try assumption. replace (B2R v * IZR N - IZR kc) with ((B2R v - B2R c) * IZR N + (B2R c * IZR N - IZR kc)) by ring.
    pose proof (Rabs_triang ((B2R v - B2R c) * IZR N) (B2R c * IZR N - IZR kc)) as T. rewrite Rabs_mult, (Rabs_pos_eq (IZR N)) in T by lra.
    assert (Rabs (B2R v - B2R c) * IZR N <= (11 * u * (IZR sa / IZR o * (IZR sb / IZR o)) + IZR d / (IZR o * IZR o)) * IZR N) by (apply Rmult_le_compat_r; lra). lra. }
  set (cr := @dequantize _ O N kr) in *. set (cg := @dequantize _ O N kg) in *. set (cb := @dequantize _ O N kb) in *.
  pose proof (RA a0 a1 a2 ltac:(cbn [In]; auto 12) ltac:(cbn [In]; auto 12) ltac:(cbn [In]; auto 12) ltac:(unfold sa; lia)) as A0.
  pose proof (RA a3 a4 a5 ltac:(cbn [In]; auto 12) ltac:(cbn [In]; auto 12) ltac:(cbn [In]; auto 12) ltac:(unfold sa; lia)) as A1.
  pose proof (RA a6 a7 a8 ltac:(cbn [In]; auto 12) ltac:(cbn [In]; auto 12) ltac:(cbn [In]; auto 12) ltac:(unfold sa; lia)) as A2.
  pose proof (RB b0 b1 b2 ltac:(cbn [In]; auto 12) ltac:(cbn [In]; auto 12) ltac:(cbn [In]; auto 12) ltac:(unfold sb; lia)) as B0.
  pose proof (RB b3 b4 b5 ltac:(cbn [In]; auto 12) ltac:(cbn [In]; auto 12) ltac:(cbn [In]; auto 12) ltac:(unfold sb; lia)) as B1.
  pose proof (RB b6 b7 b8 ltac:(cbn [In]; auto 12) ltac:(cbn [In]; auto 12) ltac:(cbn [In]; auto 12) ltac:(unfold sb; lia)) as B2.
  pose proof (RD b0 b1 b2 1%Z 0%Z 0%Z ltac:(cbn [In]; auto 12) ltac:(cbn [In]; auto 12) ltac:(cbn [In]; auto 12) ltac:(rewrite Z.mul_1_l, Z.mul_0_l; unfold d; apply Z.le_max_l)) as D0.
  pose proof (RD b3 b4 b5 0%Z 1%Z 0%Z ltac:(cbn [In]; auto 12) ltac:(cbn [In]; auto 12) ltac:(cbn [In]; auto 12) ltac:(rewrite Z.mul_1_l, Z.mul_0_l; unfold d; lia)) as D1.
  pose proof (RD b6 b7 b8 0%Z 0%Z 1%Z ltac:(cbn [In]; auto 12) ltac:(cbn [In]; auto 12) ltac:(cbn [In]; auto 12) ltac:(rewrite Z.mul_1_l, Z.mul_0_l; unfold d; lia)) as D2.
  pose proof (trip (Mat33 a0 a1 a2 a3 a4 a5 a6 a7 a8) b0 b1 b2 cr cg cb _ _ _ _ _ _ FA N0 N1 N2 Fr Fg Fb Br Bg Bb HA HB A0 A1 A2 B0 D0) as T0.
  pose proof (trip (Mat33 a0 a1 a2 a3 a4 a5 a6 a7 a8) b3 b4 b5 cr cg cb _ _ _ _ _ _ FA N3 N4 N5 Fr Fg Fb Br Bg Bb HA HB A0 A1 A2 B1 D1) as T1.
  pose proof (trip (Mat33 a0 a1 a2 a3 a4 a5 a6 a7 a8) b6 b7 b8 cr cg cb _ _ _ _ _ _ FA N6 N7 N8 Fr Fg Fb Br Bg Bb HA HB A0 A1 A2 B2 D2) as T2.
  unfold trip1 in T0, T1, T2. cbn [mx0 mx1 mx2 mx3 mx4 mx5 mx6 mx7 mx8] in T0, T1, T2. cbv zeta in T0, T1, T2.
  replace (1 * B2R cr + 0 * B2R cg + 0 * B2R cb) with (B2R cr) in T0 by ring. replace (0 * B2R cr + 1 * B2R cg + 0 * B2R cb) with (B2R cg) in T1 by ring. replace (0 * B2R cr + 0 * B2R cg + 1 * B2R cb) with (B2R cb) in T2 by ring.
  unfold rgb_to_uint, xyz_to_rgb, rgb_to_xyz, rgb_of_uint, mat_mul_rgb, mat_mul_xyz, xyz_mul, xyz_div, xyz_from_scalar.
  cbn [rgb_r rgb_g rgb_b xyz_x xyz_y xyz_z mx0 mx1 mx2 mx3 mx4 mx5 mx6 mx7 mx8]. fold cr cg cb.
  change (@rlit _ O 100.0%Q) with (lit 100.0%Q). rewrite Hl. f_equal.
  - exact (Fin cr _ kr Hr Er (proj1 T0) (proj2 T0)).
  - exact (Fin cg _ kg Hg Eg (proj1 T1) (proj2 T1)).
  - exact (Fin cb _ kb Hb Eb (proj1 T2) (proj2 T2)).
Qed.
End Trip.

(* a coarser scale is easier *)
Lemma pixel_ok_coarser p e k M N (A B : mat33 (binary_float p e)) : (0 <= N <= M)%Z -> pixel_ok p e k M A B = true -> pixel_ok p e k N A B = true.
Proof.
  intros H. unfold pixel_ok. cbv zeta. rewrite !andb_true_iff, !Z.leb_le. intros ((K & GA & GB) & (CA & CB) & CD) || intros [[[K GA] GB] [[CA CB] CD]]. repeat split; try assumption.
  eapply Z.le_trans; [|exact CD]. apply Z.mul_le_mono_nonneg_r; [|lia].
  set (o := (2 ^ k)%Z) in *. assert (Ho : (0 <= o)%Z) by (apply Z.pow_nonneg; lia). assert (Hq : (0 <= 2 ^ p)%Z) by (apply Z.pow_nonneg; lia).
  assert (M1 : forall x, (0 <= Z.max o x)%Z) by (intro; lia). assert (M2 : forall a b c x, (0 <= Z.max (sum3 a b c) x)%Z) by (intros; unfold sum3; lia).
  apply Z.add_nonneg_nonneg; [|apply Z.mul_nonneg_nonneg; [discriminate|apply Z.mul_nonneg_nonneg; exact Ho]].
  apply Z.add_nonneg_nonneg; apply Z.mul_nonneg_nonneg; try apply M1; try exact Hq; [apply Z.mul_nonneg_nonneg; [discriminate|apply M1]|]. unfold resid at 1. apply M2.
Qed.

(* ---- the listed whites and the built-in spaces ---- *)
Section Lists.
Context {T : Type} {O : RealOps T}.
Definition whites : list (xyy T) := [xy_D50; xy_D55; xy_D60; xy_D65; xy_DCI_P3; xy_ACES].
(* the space and the largest code value at which its pixels survive *)
Definition spaces : list (outcome (color_space T) * Z) :=
  [(Ret SRGB, 4095); (SRGB_DRV, 65535); (ITUR_BT709, 65535); (ITUR_BT2020, 65535); (DCI_P3, 65535); (DCI_P3_D65, 65535);
   (Ret ACES, 65535); (ACES_CG, 65535); (Ret ADOBE_RGB_1998, 4095); (Ret ALEXA_WIDE_GAMUT, 65535)]%Z.
(* every pixel with codes 0 .. N comes back from XYZ under the white w unchanged, and nothing panics *)
Definition survives (N : Z) (w : xyy T) (s : color_space T) : Prop :=
  exists A B, rgb_to_xyz_matrix w s = Ret A /\ xyz_to_rgb_matrix w s = Ret B /\
    forall r g b, (0 <= r <= N)%Z -> (0 <= g <= N)%Z -> (0 <= b <= N)%Z ->
      rgb_to_uint N (xyz_to_rgb B (rgb_to_xyz A (rgb_of_uint N (Rgb r g b)))) = Rgb r g b.
End Lists.
Definition check p e (O : RealOps (binary_float p e)) : bool :=
  forallb (fun sn => match fst sn with Ret s =>
    forallb (fun w => match rgb_to_xyz_matrix w s, xyz_to_rgb_matrix w s with Ret A, Ret B => pixel_ok p e 120 (snd sn) A B | _, _ => false end) whites | _ => false end) spaces.
Lemma check32 (L : libm f32) : check 24 128 (f32_ops L) = true.
Proof. vm_compute. reflexivity. Qed.
Lemma check64 (L : libm f64) : check 53 1024 (f64_ops L) = true.
Proof. vm_compute. reflexivity. Qed.

Lemma from_check p e {Hp : Prec_gt_0 p} {He : Prec_lt_emax p e} (L : libm (binary_float p e)) (lit : Q -> binary_float p e) :
  (24 <= p)%Z -> (100 <= e)%Z -> is_finite (lit 100.0%Q) = true -> B2R (lit 100.0%Q) = 100 -> check p e (b_ops p e L lit) = true ->
  Forall (fun on => exists s, fst on = Ret s /\ forall w N, In w (@whites _ (b_ops p e L lit)) -> (1 <= N <= snd on)%Z -> @survives _ (b_ops p e L lit) N w s) (@spaces _ (b_ops p e L lit)).
Proof.
  intros P E Fh Vh C. apply Forall_forall. intros (o, M) I. unfold check in C. rewrite forallb_forall in C.
  assert (MM : (M <= 65535)%Z). { unfold spaces in I. cbn [In] in I. repeat (destruct I as [I|I]; [injection I as _ <-; lia|]). contradiction. }
  specialize (C _ I). cbn [fst snd] in *. destruct o as [s| |]; try discriminate. exists s. split; [reflexivity|]. intros w N W HN. rewrite forallb_forall in C. specialize (C _ W).
  destruct (rgb_to_xyz_matrix w s) as [A| |] eqn:EA; try discriminate. destruct (xyz_to_rgb_matrix w s) as [B| |] eqn:EB; try discriminate.
  exists A, B. split; [exact EA|]. split; [exact EB|]. intros r g b Hr Hg Hb.
  apply (pixel_trip p e P E (lit 100.0%Q) Fh Vh 120 N A B r g b L lit eq_refl); try assumption.
  - split; [lia|]. apply Z.le_trans with (2 ^ 24)%Z; [lia|apply Z.pow_le_mono_r; lia].
  - apply pixel_ok_coarser with M; [lia|exact C].
Qed.

(* every built-in space, every listed white, every depth up to the space's own *)
Theorem C86_pixels_f32 (L : libm f32) :
  Forall (fun on => exists s, fst on = Ret s /\ forall w N, In w (@whites _ (f32_ops L)) -> (1 <= N <= snd on)%Z -> @survives _ (f32_ops L) N w s) (@spaces _ (f32_ops L)).
Proof.
  apply (from_check 24 128 L); [lia|lia|reflexivity| |exact (check32 L)]. rewrite <- SF2R_B2SF. change (B2SF (f64_to_f32 (b_of_Q 53 1024 100.0))) with (SpecFloat.S754_finite false 13107200 (-17)).
  unfold SF2R, F2R. cbn [Fnum Fexp cond_Zopp]. change (bpow radix2 (-17)) with (/ 131072). lra.
Qed.
Theorem C86_pixels_f64 (L : libm f64) :
  Forall (fun on => exists s, fst on = Ret s /\ forall w N, In w (@whites _ (f64_ops L)) -> (1 <= N <= snd on)%Z -> @survives _ (f64_ops L) N w s) (@spaces _ (f64_ops L)).
Proof. apply (from_check 53 1024 L); [lia|lia|reflexivity| |exact (check64 L)]. apply (b_of_Q_int 53 1024 100.0 100); [q2r; lra|cbn; lia]. Qed.

(* the matrices printed with four decimals are not inverse to sixteen bits: a grey picks up a tint *)
Definition there_and_back {T} {O : RealOps T} (w : xyy T) (s : color_space T) (c : rgbu) : outcome rgbu :=
  obind (rgb_to_xyz_matrix w s) (fun A => obind (xyz_to_rgb_matrix w s) (fun B => Ret (rgb_to_u16 (xyz_to_rgb B (rgb_to_xyz A (rgb_of_u16 c)))))).
Theorem C86_deep_srgb_refuted (L : libm f64) (L' : libm f32) : exists c d, d <> c /\
  @there_and_back _ (f64_ops L) (@xy_D65 _ (f64_ops L)) (@SRGB _ (f64_ops L)) c = Ret d /\ @there_and_back _ (f32_ops L') (@xy_D65 _ (f32_ops L')) (@SRGB _ (f32_ops L')) c = Ret d.
Proof.
  exists (Rgb 30000%Z 30000%Z 30000%Z), (Rgb 30000%Z 30002%Z 30000%Z). split; [discriminate|]. split; reflexivity.
Qed.
Theorem C86_deep_adobe_refuted (L : libm f32) : exists c d, d <> c /\
  @there_and_back _ (f32_ops L) (@xy_D65 _ (f32_ops L)) (@ADOBE_RGB_1998 _ (f32_ops L)) c = Ret d.
Proof.
  exists (Rgb 65535%Z 65535%Z 65535%Z), (Rgb 65535%Z 65534%Z 65535%Z). split; [discriminate|]. reflexivity.
Qed.
(* a dark 16-bit colour through the wide Alexa space and a white that is not its own *)
Example C86_example (L : libm f32) :
  @there_and_back _ (f32_ops L) (@xy_D50 _ (f32_ops L)) (@ALEXA_WIDE_GAMUT _ (f32_ops L)) (Rgb 1%Z 2%Z 60001%Z) = Ret (Rgb 1%Z 2%Z 60001%Z).
Proof. reflexivity. Qed.
