(* C93: stored pixels through an ACES working space and back *)
From Coq Require Import Reals ZArith QArith Qreals Lra Lia Bool List.
From Flocq Require Import Core BinarySingleNaN.
From Verif Require Import Outcome RealOps MathModel ColorModel SpaceModel TransformModel XReal FloatInst FloatProofs ErrProofs TransferProofs PropPixel RelErr CurveProofs PropCurve PropSelf LabTripProofs PropLabFloat.
Import ListNotations.
Open Scope R_scope.

(* converting an image with codes 0 .. N to floating-point colours of the space t, and those back, gives the same image and fills both destinations *)
Definition work_kept {T} {O : RealOps T} (N : Z) (s t : color_space T) : Prop :=
  forall (px to : list rgbu) (work : list (rgbf T)), Forall (fun c => (0 <= rgb_r c <= N)%Z /\ (0 <= rgb_g c <= N)%Z /\ (0 <= rgb_b c <= N)%Z) px -> length work = length px -> length to = length px ->
    exists mid, rgb_to_rgb (fun c => c) s t (map (rgb_of_uint N) px) work = Ret (length px, mid) /\ rgb_to_rgb (rgb_to_uint N) t s mid to = Ret (length px, px).

Section Trip.
Context (p e : Z) {Hp : Prec_gt_0 p} {He : Prec_lt_emax p e} (P5 : (24 <= p)%Z) (E5 : (128 <= e)%Z) (L : libm (binary_float p e)) (lit : Q -> binary_float p e).
Notation fl := (binary_float p e).
Notation ops := (b_ops p e L lit).
Notation u := (bpow radix2 (- p)).
Notation litd := (b_of_Q p e).

(* B (A c) is near c *)
Definition trip_check (k yc D : Z) (A B : mat33 fl) : bool :=
  (0 <=? k)%Z && forallb (good p e k) (mat_list A) && forallb (good p e k) (mat_list B) &&
  let a := zmat p e k A in let b := zmat p e k B in let o := (2 ^ k)%Z in let q := (o * o)%Z in
  let sa := Z.max o (Z.max (sum3 (mx0 a) (mx1 a) (mx2 a)) (Z.max (sum3 (mx3 a) (mx4 a) (mx5 a)) (sum3 (mx6 a) (mx7 a) (mx8 a)))) in
  let sb := Z.max o (Z.max (sum3 (mx0 b) (mx1 b) (mx2 b)) (Z.max (sum3 (mx3 b) (mx4 b) (mx5 b)) (sum3 (mx6 b) (mx7 b) (mx8 b)))) in
  let d := Z.max (resid (mx0 b) (mx1 b) (mx2 b) a q 0 0) (Z.max (resid (mx3 b) (mx4 b) (mx5 b) a 0 q 0) (resid (mx6 b) (mx7 b) (mx8 b) a 0 0 q)) in
  ((1000 * sa <=? 1904 * o) && (sb <=? 8 * o) && ((801 * sa * sb + 100 * d * 2 ^ p) * yc * 10 ^ 12 <=? 10 ^ 4 * D * q * 2 ^ p))%Z.
Lemma trip_ok (A : mat33 fl) (b0 b1 b2 r g b : fl) (e0 e1 e2 sa sb d m : R) : ffin p e A = true -> is_finite b0 = true -> is_finite b1 = true -> is_finite b2 = true ->
  is_finite r = true -> is_finite g = true -> is_finite b = true -> 0 <= B2R r <= m -> 0 <= B2R g <= m -> 0 <= B2R b <= m -> 1 <= m <= 1.05 -> 1 <= sa <= 1.904 -> 1 <= sb <= 8 ->
  Rabs (B2R (mx0 A)) + Rabs (B2R (mx1 A)) + Rabs (B2R (mx2 A)) <= sa -> Rabs (B2R (mx3 A)) + Rabs (B2R (mx4 A)) + Rabs (B2R (mx5 A)) <= sa ->
  Rabs (B2R (mx6 A)) + Rabs (B2R (mx7 A)) + Rabs (B2R (mx8 A)) <= sa -> Rabs (B2R b0) + Rabs (B2R b1) + Rabs (B2R b2) <= sb ->
  Rabs (B2R b0 * B2R (mx0 A) + B2R b1 * B2R (mx3 A) + B2R b2 * B2R (mx6 A) - e0) + Rabs (B2R b0 * B2R (mx1 A) + B2R b1 * B2R (mx4 A) + B2R b2 * B2R (mx7 A) - e1)
    + Rabs (B2R b0 * B2R (mx2 A) + B2R b1 * B2R (mx5 A) + B2R b2 * B2R (mx8 A) - e2) <= d ->
  let '(x, y, z) := trip1 p e A r g b in let v := fdot p e b0 b1 b2 x y z in
  is_finite v = true /\ Rabs (B2R v - (e0 * B2R r + e1 * B2R g + e2 * B2R b)) <= (8.01 * u * (sa * sb) + d) * m.
Proof.
  intros FA F0 F1 F2 Fr Fg Fb Hr Hg Hb HM HA HB A0 A1 A2 B D. unfold trip1. destruct (CurveProofs.u24 p P5) as [U0 U].
  unfold ffin, mat_list in FA. cbn [forallb] in FA. rewrite !andb_true_iff in FA. destruct FA as (N0 & N1 & N2 & N3 & N4 & N5 & N6 & N7 & N8 & _).
  assert (Cr : Rabs (B2R r) <= m) by (apply Rabs_le; lra). assert (Cg : Rabs (B2R g) <= m) by (apply Rabs_le; lra). assert (Cb : Rabs (B2R b) <= m) by (apply Rabs_le; lra).
  assert (E100 : (100 <= e)%Z) by lia.
  destruct (row_ok p e P5 E100 _ _ _ r g b sa m N0 N1 N2 Fr Fg Fb A0 Cr Cg Cb ltac:(lra) ltac:(lra)) as [X1 X2].
  destruct (row_ok p e P5 E100 _ _ _ r g b sa m N3 N4 N5 Fr Fg Fb A1 Cr Cg Cb ltac:(lra) ltac:(lra)) as [Y1 Y2].
  destruct (row_ok p e P5 E100 _ _ _ r g b sa m N6 N7 N8 Fr Fg Fb A2 Cr Cg Cb ltac:(lra) ltac:(lra)) as [Z1 Z2].
  set (x := fdot _ _ _ _ _ _ _ _) in X1, X2 |- *. set (y := fdot _ _ _ _ _ _ _ _) in Y1, Y2 |- *. set (z := fdot _ _ _ _ _ _ _ _) in Z1, Z2 |- *. clearbody x y z.
  pose proof (dot3 _ _ _ _ _ _ _ _ Cr Cg Cb A0 ltac:(lra)) as X3. pose proof (dot3 _ _ _ _ _ _ _ _ Cr Cg Cb A1 ltac:(lra)) as Y3. pose proof (dot3 _ _ _ _ _ _ _ _ Cr Cg Cb A2 ltac:(lra)) as Z3.
  set (ex := B2R (mx0 A) * B2R r + _ + _) in X2, X3. set (ey := B2R (mx3 A) * B2R r + _ + _) in Y2, Y3. set (ez := B2R (mx6 A) * B2R r + _ + _) in Z2, Z3.
  assert (SM : 1 <= sa * m <= 1.9992) by (clear - HA HM; nra). set (w := sa * m) in *.
  assert (UA : 0 <= u * w <= w / 10000000) by (clear - U0 U SM; nra).
  assert (S : forall v t : R, Rabs (v - t) <= 4.001 * u * w -> Rabs t <= w -> Rabs v <= 1.000001 * w). { intros v t H1 H2. replace v with ((v - t) + t) by ring. pose proof (Rabs_triang (v - t) t). lra. }
  pose proof (S _ _ X2 X3) as X4. pose proof (S _ _ Y2 Y3) as Y4. pose proof (S _ _ Z2 Z3) as Z4.
  destruct (row_ok p e P5 E100 b0 b1 b2 x y z sb (1.000001 * w) F0 F1 F2 X1 Y1 Z1 B X4 Y4 Z4 HB ltac:(lra)) as [V1 V2].
  cbv zeta. split; [exact V1|]. set (v := fdot _ _ _ _ _ _ _ _) in V2 |- *. set (wx := B2R x) in *. set (wy := B2R y) in *. set (wz := B2R z) in *. clearbody v wx wy wz.
  pose proof (dot3 (B2R b0) (B2R b1) (B2R b2) (wx - ex) (wy - ey) (wz - ez) (4.001 * u * w) sb X2 Y2 Z2 B ltac:(lra)) as Q.
  pose proof (dot3 _ _ _ _ _ _ _ _ Cr Cg Cb D ltac:(lra)) as K.
  match type of Q with Rabs ?q <= _ => match type of K with Rabs ?k <= _ => match type of V2 with Rabs ?n <= _ =>
    replace (B2R v - (e0 * B2R r + e1 * B2R g + e2 * B2R b)) with (n + q + k) by (unfold ex, ey, ez; ring); pose proof (Rabs_triang (n + q) k); pose proof (Rabs_triang n q) end end end.
  assert (0 <= u * (w * sb)) by (clear - U0 SM HB; apply Rmult_le_pos; [lra|nra]). replace ((8.01 * u * (sa * sb) + d) * m) with (8.01 * (u * (w * sb)) + d * m) by (unfold w; ring). lra.
Qed.

Lemma trip_pixel k yc D A B (cr cg cb : fl) : trip_check k yc D A B = true -> (100 <= yc <= 105)%Z -> is_finite cr = true -> is_finite cg = true -> is_finite cb = true ->
  0 <= B2R cr <= IZR yc / 100 -> 0 <= B2R cg <= IZR yc / 100 -> 0 <= B2R cb <= IZR yc / 100 ->
  let v := @mat_mul_rgb _ ops B (@mat_mul_rgb _ ops A (Rgb cr cg cb)) in let d := IZR D / 1000000000000 in
  (is_finite (rgb_r v) = true /\ Rabs (B2R (rgb_r v) - B2R cr) <= d) /\ (is_finite (rgb_g v) = true /\ Rabs (B2R (rgb_g v) - B2R cg) <= d) /\ (is_finite (rgb_b v) = true /\ Rabs (B2R (rgb_b v) - B2R cb) <= d).
Proof.
  intros C HY Fr Fg Fb Br Bg Bb. unfold trip_check in C. rewrite !andb_true_iff in C. destruct C as [[[K GA] GB] C]. apply Z.leb_le in K.
  set (o := (2 ^ k)%Z) in *. assert (O1 : (1 <= o)%Z) by (unfold o; assert (0 < 2 ^ k)%Z by (apply Z.pow_pos_nonneg; lia); lia). assert (O2 : 1 <= IZR o) by (apply IZR_le, O1).
  assert (FA : ffin p e A = true). { unfold ffin. apply forallb_forall. intros x I. apply (zent_ok p e k); [exact K|]. eapply forallb_forall in GA; eassumption. }
  assert (FB : ffin p e B = true). { unfold ffin. apply forallb_forall. intros x I. apply (zent_ok p e k); [exact K|]. eapply forallb_forall in GB; eassumption. }
  assert (ZA : forall x, In x (mat_list A) -> IZR (zent p e k x) = B2R x * IZR o). { intros x I. apply zent_ok; [exact K|]. eapply forallb_forall in GA; eassumption. }
  assert (ZB : forall x, In x (mat_list B) -> IZR (zent p e k x) = B2R x * IZR o). { intros x I. apply zent_ok; [exact K|]. eapply forallb_forall in GB; eassumption. }
  pose proof FB as FB'. unfold ffin, mat_list in FB'. cbn [forallb] in FB'. rewrite !andb_true_iff in FB'. destruct FB' as (N0 & N1 & N2 & N3 & N4 & N5 & N6 & N7 & N8 & _).
  destruct A as [a0 a1 a2 a3 a4 a5 a6 a7 a8], B as [b0 b1 b2 b3 b4 b5 b6 b7 b8]. unfold zmat in C. cbn [mx0 mx1 mx2 mx3 mx4 mx5 mx6 mx7 mx8 mat_list] in *. cbv zeta in C.
  set (sa := Z.max o (Z.max (sum3 (zent p e k a0) _ _) _)) in C. set (sb := Z.max o (Z.max (sum3 (zent p e k b0) _ _) _)) in C. set (d := Z.max (resid _ _ _ _ _ _ _) _) in C.
  rewrite !Z.leb_le in C. destruct C as [[CA CB] CD].
  assert (HA : 1 <= IZR sa / IZR o <= 1.904).
  { assert (IZR o <= IZR sa) by (apply IZR_le; unfold sa; lia). apply IZR_le in CA. rewrite !mult_IZR in CA. split; apply (Rmult_le_reg_r (IZR o)); try lra; unfold Rdiv; rewrite Rmult_assoc, Rinv_l by lra; lra. }
  assert (HB : 1 <= IZR sb / IZR o <= 8).
  { assert (IZR o <= IZR sb) by (apply IZR_le; unfold sb; lia). apply IZR_le in CB. rewrite !mult_IZR in CB. split; apply (Rmult_le_reg_r (IZR o)); try lra; unfold Rdiv; rewrite Rmult_assoc, Rinv_l by lra; lra. }
  assert (RA : forall x y z, In x [a0; a1; a2; a3; a4; a5; a6; a7; a8] -> In y [a0; a1; a2; a3; a4; a5; a6; a7; a8] -> In z [a0; a1; a2; a3; a4; a5; a6; a7; a8] -> (sum3 (zent p e k x) (zent p e k y) (zent p e k z) <= sa)%Z -> Rabs (B2R x) + Rabs (B2R y) + Rabs (B2R z) <= IZR sa / IZR o).
  { intros x y z Ix Iy Iz H. eapply under; [lra|apply sum3_ok; [lra|apply ZA; assumption..]|exact H]. }
  assert (RB : forall x y z, In x [b0; b1; b2; b3; b4; b5; b6; b7; b8] -> In y [b0; b1; b2; b3; b4; b5; b6; b7; b8] -> In z [b0; b1; b2; b3; b4; b5; b6; b7; b8] -> (sum3 (zent p e k x) (zent p e k y) (zent p e k z) <= sb)%Z -> Rabs (B2R x) + Rabs (B2R y) + Rabs (B2R z) <= IZR sb / IZR o).
  { intros x y z Ix Iy Iz H. eapply under; [lra|apply sum3_ok; [lra|apply ZB; assumption..]|exact H]. }
  assert (OO : 0 < IZR o * IZR o) by nra.
  assert (RD : forall x y z (e0 e1 e2 : Z), In x [b0; b1; b2; b3; b4; b5; b6; b7; b8] -> In y [b0; b1; b2; b3; b4; b5; b6; b7; b8] -> In z [b0; b1; b2; b3; b4; b5; b6; b7; b8] ->
    (resid (zent p e k x) (zent p e k y) (zent p e k z) (Mat33 (zent p e k a0) (zent p e k a1) (zent p e k a2) (zent p e k a3) (zent p e k a4) (zent p e k a5) (zent p e k a6) (zent p e k a7) (zent p e k a8)) (e0 * (o * o)) (e1 * (o * o)) (e2 * (o * o)) <= d)%Z ->
    Rabs (B2R x * B2R a0 + B2R y * B2R a3 + B2R z * B2R a6 - IZR e0) + Rabs (B2R x * B2R a1 + B2R y * B2R a4 + B2R z * B2R a7 - IZR e1) + Rabs (B2R x * B2R a2 + B2R y * B2R a5 + B2R z * B2R a8 - IZR e2) <= IZR d / (IZR o * IZR o)).
  { intros x y z e0 e1 e2 Ix Iy Iz H. eapply under; [exact OO| |exact H]. unfold resid. cbn [mx0 mx1 mx2 mx3 mx4 mx5 mx6 mx7 mx8].
    apply sum3_ok; [lra|..]; rewrite minus_IZR, !plus_IZR, !mult_IZR, (ZB x Ix), (ZB y Iy), (ZB z Iz) , !ZA by (cbn [In mat_list mx0 mx1 mx2 mx3 mx4 mx5 mx6 mx7 mx8]; auto 12); ring. }
  assert (M1 : 1 <= IZR yc / 100 <= 1.05) by (destruct HY as [H1 H2]; apply IZR_le in H1, H2; lra).
  assert (FIN : (8.01 * u * (IZR sa / IZR o * (IZR sb / IZR o)) + IZR d / (IZR o * IZR o)) * (IZR yc / 100) <= IZR D / 1000000000000).
  { apply IZR_le in CD. rewrite !mult_IZR, !plus_IZR, !mult_IZR in CD. pose proof Hp as PP. red in PP. change (2 ^ p)%Z with (radix2 ^ p)%Z in CD. rewrite IZR_Zpower in CD by lia. change (IZR (10 ^ 12)) with 1000000000000 in CD. change (IZR (10 ^ 4)) with 10000 in CD.
    set (P := bpow radix2 p) in *. assert (UP : u * P = 1) by (unfold P; rewrite <- bpow_plus; replace (- p + p)%Z with 0%Z by ring; reflexivity). assert (P0 : 0 < P) by (apply bpow_gt_0).
    apply (Rmult_le_reg_r (10000 * (IZR o * IZR o) * P * 1000000000000)); [nra|].
    replace ((8.01 * u * (IZR sa / IZR o * (IZR sb / IZR o)) + IZR d / (IZR o * IZR o)) * (IZR yc / 100) * (10000 * (IZR o * IZR o) * P * 1000000000000))
      with (1000000000000 * IZR yc * (801 * IZR sa * IZR sb * (u * P) + 100 * IZR d * P)) by (q2r; field; lra). rewrite UP.
    replace (IZR D / 1000000000000 * (10000 * (IZR o * IZR o) * P * 1000000000000)) with (10000 * IZR D * (IZR o * IZR o) * P) by field. lra. }
  pose proof (RA a0 a1 a2 ltac:(cbn [In]; auto 12) ltac:(cbn [In]; auto 12) ltac:(cbn [In]; auto 12) ltac:(unfold sa; lia)) as A0.
  pose proof (RA a3 a4 a5 ltac:(cbn [In]; auto 12) ltac:(cbn [In]; auto 12) ltac:(cbn [In]; auto 12) ltac:(unfold sa; lia)) as A1.
  pose proof (RA a6 a7 a8 ltac:(cbn [In]; auto 12) ltac:(cbn [In]; auto 12) ltac:(cbn [In]; auto 12) ltac:(unfold sa; lia)) as A2.
  pose proof (RB b0 b1 b2 ltac:(cbn [In]; auto 12) ltac:(cbn [In]; auto 12) ltac:(cbn [In]; auto 12) ltac:(unfold sb; lia)) as B0.
  pose proof (RB b3 b4 b5 ltac:(cbn [In]; auto 12) ltac:(cbn [In]; auto 12) ltac:(cbn [In]; auto 12) ltac:(unfold sb; lia)) as B1.
  pose proof (RB b6 b7 b8 ltac:(cbn [In]; auto 12) ltac:(cbn [In]; auto 12) ltac:(cbn [In]; auto 12) ltac:(unfold sb; lia)) as B2.
  pose proof (RD b0 b1 b2 1%Z 0%Z 0%Z ltac:(cbn [In]; auto 12) ltac:(cbn [In]; auto 12) ltac:(cbn [In]; auto 12) ltac:(rewrite Z.mul_1_l, Z.mul_0_l; unfold d; apply Z.le_max_l)) as D0.
  pose proof (RD b3 b4 b5 0%Z 1%Z 0%Z ltac:(cbn [In]; auto 12) ltac:(cbn [In]; auto 12) ltac:(cbn [In]; auto 12) ltac:(rewrite Z.mul_1_l, Z.mul_0_l; unfold d; lia)) as D1.
  pose proof (RD b6 b7 b8 0%Z 0%Z 1%Z ltac:(cbn [In]; auto 12) ltac:(cbn [In]; auto 12) ltac:(cbn [In]; auto 12) ltac:(rewrite Z.mul_1_l, Z.mul_0_l; unfold d; lia)) as D2.
  pose proof (trip_ok (Mat33 a0 a1 a2 a3 a4 a5 a6 a7 a8) b0 b1 b2 cr cg cb _ _ _ _ _ _ _ FA N0 N1 N2 Fr Fg Fb Br Bg Bb M1 HA HB A0 A1 A2 B0 D0) as T0.
  pose proof (trip_ok (Mat33 a0 a1 a2 a3 a4 a5 a6 a7 a8) b3 b4 b5 cr cg cb _ _ _ _ _ _ _ FA N3 N4 N5 Fr Fg Fb Br Bg Bb M1 HA HB A0 A1 A2 B1 D1) as T1.
  pose proof (trip_ok (Mat33 a0 a1 a2 a3 a4 a5 a6 a7 a8) b6 b7 b8 cr cg cb _ _ _ _ _ _ _ FA N6 N7 N8 Fr Fg Fb Br Bg Bb M1 HA HB A0 A1 A2 B2 D2) as T2.
  unfold trip1 in T0, T1, T2. cbn [mx0 mx1 mx2 mx3 mx4 mx5 mx6 mx7 mx8] in T0, T1, T2. cbv zeta in T0, T1, T2.
  replace (1 * B2R cr + 0 * B2R cg + 0 * B2R cb) with (B2R cr) in T0 by ring. replace (0 * B2R cr + 1 * B2R cg + 0 * B2R cb) with (B2R cg) in T1 by ring. replace (0 * B2R cr + 0 * B2R cg + 1 * B2R cb) with (B2R cb) in T2 by ring.
  cbv zeta. unfold mat_mul_rgb. cbn [rgb_r rgb_g rgb_b mx0 mx1 mx2 mx3 mx4 mx5 mx6 mx7 mx8].
  split; [|split].
  - split; [exact (proj1 T0)|exact (Rle_trans _ _ _ (proj2 T0) FIN)].
  - split; [exact (proj1 T1)|exact (Rle_trans _ _ _ (proj2 T1) FIN)].
  - split; [exact (proj1 T2)|exact (Rle_trans _ _ _ (proj2 T2) FIN)].
Qed.

(* images *)
Lemma work_by dec enc yc D N s t A B : channel_ok p e L lit N dec enc (IZR yc / 100) 0 (IZR D / 1000000000000) -> (100 <= yc <= 105)%Z ->
  (forall c, cs_eotf s c = Rgb (dec (rgb_r c)) (dec (rgb_g c)) (dec (rgb_b c))) -> (forall c, cs_oetf s c = Rgb (enc (rgb_r c)) (enc (rgb_g c)) (enc (rgb_b c))) -> cs_oetf t = @enc_linear fl -> cs_eotf t = @dec_linear fl ->
  @rgb_to_rgb_matrix _ ops s t = Ret A -> @rgb_to_rgb_matrix _ ops t s = Ret B -> trip_check 200 yc D A B = true -> @work_kept _ ops N s t.
Proof.
  intros CH HY ED EO TO TE EA EB K. intros px to work IN LW LT. unfold rgb_to_rgb. rewrite EA, EB. cbn [obind]. exists (map (fun c => @mat_mul_rgb _ ops A (cs_decode s (@rgb_of_uint _ ops N c))) px). split.
  - f_equal. clear IN LT. revert work LW. induction px as [|c px IH]; intros work LW; [destruct work; [reflexivity|discriminate]|]. destruct work as [|w work]; [discriminate|]. cbn [map rgb_to_rgb_loop length]. rewrite IH by (injection LW as LW; exact LW).
    unfold cs_encode. rewrite TO. destruct (@mat_mul_rgb _ ops A _). reflexivity.
  - f_equal. clear LW work. revert to LT. induction IN as [|[r g b] px (Hr & Hg & Hb) IN IH]; intros to LT; [destruct to; [reflexivity|discriminate]|]. destruct to as [|w to]; [discriminate|]. cbn [map rgb_to_rgb_loop length rgb_r rgb_g rgb_b] in *. rewrite IH by (injection LT as LT; exact LT). f_equal. f_equal.
    unfold cs_encode, cs_decode, rgb_of_uint. rewrite ED, TE. cbn [rgb_r rgb_g rgb_b]. destruct (CH r Hr) as (Fr & Br & Vr). destruct (CH g Hg) as (Fg & Bg & Vg). destruct (CH b Hb) as (Fb & Bb & Vb).
    destruct (trip_pixel 200 yc D A B _ _ _ K HY Fr Fg Fb Br Bg Bb) as ((F1 & E1) & (F2 & E2) & (F3 & E3)).
    replace (@dec_linear fl (@mat_mul_rgb _ ops A (Rgb (dec (@dequantize _ ops N r)) (dec (@dequantize _ ops N g)) (dec (@dequantize _ ops N b))))) with (@mat_mul_rgb _ ops A (Rgb (dec (@dequantize _ ops N r)) (dec (@dequantize _ ops N g)) (dec (@dequantize _ ops N b)))) by (destruct (@mat_mul_rgb _ ops A _); reflexivity).
    set (v := @mat_mul_rgb _ ops B _) in *. rewrite EO. unfold rgb_to_uint. cbn [rgb_r rgb_g rgb_b]. rewrite (Vr _ F1), (Vg _ F2), (Vb _ F3); [reflexivity|..]; rewrite Rmult_0_l, Rplus_0_l; assumption.
Qed.
Definition works : list (outcome (color_space fl)) := [Ret (@ACES _ ops); @ACES_CG _ ops].
Definition work_check (yc D : Z) (o : outcome (color_space fl)) : bool :=
  match o with Ret s => forallb (fun o' => match o' with Ret t => match @rgb_to_rgb_matrix _ ops s t, @rgb_to_rgb_matrix _ ops t s with Ret A, Ret B => trip_check 200 yc D A B | _, _ => false end | _ => false end) works | _ => false end.
Definition works_kept (o : outcome (color_space fl)) (M : Z) : Prop := exists s, o = Ret s /\ Forall (fun o' => exists t, o' = Ret t /\ forall N, (1 <= N <= M)%Z -> @work_kept _ ops N s t) works.
Lemma works_by dec enc yc D M o : work_check yc D o = true -> (100 <= yc <= 105)%Z -> (forall N, (1 <= N <= M)%Z -> channel_ok p e L lit N dec enc (IZR yc / 100) 0 (IZR D / 1000000000000)) ->
  (forall s, o = Ret s -> (forall c, cs_eotf s c = Rgb (dec (rgb_r c)) (dec (rgb_g c)) (dec (rgb_b c))) /\ (forall c, cs_oetf s c = Rgb (enc (rgb_r c)) (enc (rgb_g c)) (enc (rgb_b c)))) -> works_kept o M.
Proof.
  intros C HY CH EQ. destruct o as [s| |]; try discriminate. exists s. split; [reflexivity|]. destruct (EQ s eq_refl) as [ED EO]. apply Forall_forall. intros o' Ho. unfold work_check in C. pose proof (proj1 (forallb_forall _ _) C o' Ho) as K. cbv beta in K.
  destruct o' as [t| |]; try discriminate. destruct (@rgb_to_rgb_matrix _ ops s t) as [A| |] eqn:EA; try discriminate. destruct (@rgb_to_rgb_matrix _ ops t s) as [B| |] eqn:EB; try discriminate.
  exists t. split; [reflexivity|]. intros N HN. assert (LT : cs_oetf t = @enc_linear fl /\ cs_eotf t = @dec_linear fl).
  { destruct Ho as [Ho|[Ho|[]]]; [injection Ho as <-; split; reflexivity|]. apply (new_oetf p e L lit _ _ _ _ _ _ _ Ho). }
  apply (work_by dec enc yc D N s t A B); try assumption; try apply LT. apply CH, HN.
Qed.
Context (LO : lit_ok p e lit) (PW : powf_ok p e (l_powf L)) (PZ : powf_zero p e (l_powf L)) (PN : powf_neg p e (l_powf L)) (E6 : IZR (e + p) * u <= / 10000) (E7 : (2 * p <= e)%Z).
Lemma works_curve dec enc E D M o : (forall x, is_finite x = true -> 0 <= B2R x <= 1 -> moves1 p e dec enc E x) -> (forall s, o = Ret s -> (forall c, cs_eotf s c = Rgb (dec (rgb_r c)) (dec (rgb_g c)) (dec (rgb_b c))) /\ (forall c, cs_oetf s c = Rgb (enc (rgb_r c)) (enc (rgb_g c)) (enc (rgb_b c)))) ->
  work_check 105 D o = true -> (M <= 65535)%Z -> 0 <= E -> 0 <= IZR D <= 1000000000 -> IZR M * (E + 13 * (IZR D / 1000000000000) + 2 * u) < / 2 -> works_kept o M.
Proof.
  intros MV EQ C HM E0 D0 B. assert (U0 : 0 < u) by apply bpow_gt_0. apply (works_by dec enc 105 D M o C); [lia| |exact EQ]. intros N HN. replace (IZR 105 / 100) with 1.05 by lra.
  apply (moves_channel p e P5 L lit N dec enc E); try assumption; try lra; [lia|]. apply (scale_le N M); [exact HN|lra|lra].
Qed.
Lemma works_linear D M o : (forall s, o = Ret s -> cs_oetf s = @enc_linear fl /\ cs_eotf s = @dec_linear fl) -> work_check 100 D o = true -> (M <= 65535)%Z -> 0 <= IZR D -> IZR M * (IZR D / 1000000000000 + 2 * u) < / 2 -> works_kept o M.
Proof.
  intros EQ C HM D0 B. assert (U0 : 0 < u) by apply bpow_gt_0. apply (works_by (fun x => x) (fun x => x) 100 D M o C); [lia| |intros s E; destruct (EQ s E) as [EO ED]; rewrite EO, ED; split; intros [? ? ?]; reflexivity].
  intros N HN. replace (IZR 100 / 100) with 1 by lra. apply linear_channel; try assumption; try lra; [lia|]. apply (scale_le N M); [exact HN|lra|lra].
Qed.
Lemma works_power D c M o : c = IZR D / 1000000000000 -> (forall s, o = Ret s -> cs_oetf s = @pow_curve _ ops (Bdiv mode_NE (litd 1.0) (litd 2.6)) /\ cs_eotf s = @pow_curve _ ops (litd 2.6)) -> work_check 105 D o = true -> (M <= 255)%Z -> 0 <= c <= 8.77e-8 -> works_kept o M.
Proof.
  intros Hc EQ C HM D0. pose proof (CurveProofs.u24 p P5) as [U0 U]. apply (works_by (fun x => l_powf L x (litd 2.6)) (fun x => l_powf L x (Bdiv mode_NE (litd 1.0) (litd 2.6))) 105 D M o C); [lia| |intros s E; destruct (EQ s E) as [EO ED]; rewrite EO, ED; split; intros [? ? ?]; reflexivity].
  intros N HN. rewrite <- Hc. apply (channel_weaken p e L lit N _ _ (1 + 4 * u)); [lra|]. apply p26_channel; try assumption. lia.
Qed.
End Trip.

Definition work_f32 {T} {O : RealOps T} : list (outcome (color_space T) * Z) :=
  [(Ret SRGB, 255); (SRGB_DRV, 8191); (ITUR_BT709, 511); (ITUR_BT2020, 511); (Ret ACES, 65535); (ACES_CG, 65535)]%Z.
Definition work_f64 {T} {O : RealOps T} : list (outcome (color_space T) * Z) :=
  [(Ret SRGB, 255); (SRGB_DRV, 65535); (ITUR_BT709, 511); (ITUR_BT2020, 511); (Ret ACES, 65535); (ACES_CG, 65535); (DCI_P3, 255); (DCI_P3_D65, 255)]%Z.
Definition in_both_works {T} {O : RealOps T} (l : list (outcome (color_space T) * Z)) : Prop :=
  Forall (fun sn => exists s, fst sn = Ret s /\ Forall (fun o => exists t, o = Ret t /\ forall N, (1 <= N <= snd sn)%Z -> work_kept N s t) [Ret ACES; ACES_CG]) l.
Theorem C93_work_f32 (L : libm f32) : good_powf 24 128 (l_powf L) -> @in_both_works _ (f32_ops L) (@work_f32 _ (f32_ops L)).
Proof.
  intros (PW & PZ & PN). set (lit := fun q => f64_to_f32 (b_of_Q 53 1024 q)). assert (U : bpow radix2 (- (24)) = / 16777216) by reflexivity.
  assert (CRV := works_curve 24 128 ltac:(lia) ltac:(lia) L lit). assert (LIN := works_linear 24 128 ltac:(lia) ltac:(lia) L lit). rewrite U in CRV, LIN.
  assert (P1 := srgb_pair 24 128 ltac:(lia) ltac:(lia) L lit lit32_ok PW). assert (P2 := bt709_pair 24 128 ltac:(lia) ltac:(lia) L lit lit32_ok PW). assert (P3 := bt2020_pair 24 128 ltac:(lia) ltac:(lia) L lit lit32_ok PW). rewrite U in P1, P2, P3.
  unfold in_both_works, work_f32. repeat apply Forall_cons; [..|apply Forall_nil]; cbn [fst snd].
  - refine (CRV _ _ _ 75700000%Z _ _ (fun x F H => proj2 (P1 x F H)) _ _ _ _ _ _); [intros s E; injection E as <-; split; intro; reflexivity|vm_compute; reflexivity|lia|lra|lra|lra].
  - refine (CRV _ _ _ 2870000%Z _ _ (fun x F H => proj2 (P1 x F H)) _ _ _ _ _ _); [intros s E; destruct (new_oetf 24 128 L lit _ _ _ _ _ _ _ E) as [EO ED]; rewrite EO, ED; split; intro; reflexivity|vm_compute; reflexivity|lia|lra|lra|lra].
  - refine (CRV _ _ _ 2870000%Z _ _ (fun x F H => proj2 (P2 x F H)) _ _ _ _ _ _); [intros s E; destruct (new_oetf 24 128 L lit _ _ _ _ _ _ _ E) as [EO ED]; rewrite EO, ED; split; intro; reflexivity|vm_compute; reflexivity|lia|lra|lra|lra].
  - refine (CRV _ _ _ 1400000%Z _ _ (fun x F H => proj2 (P3 x F H)) _ _ _ _ _ _); [intros s E; destruct (new_oetf 24 128 L lit _ _ _ _ _ _ _ E) as [EO ED]; rewrite EO, ED; split; intro; reflexivity|vm_compute; reflexivity|lia|lra|lra|lra].
  - refine (LIN 1110000%Z _ _ _ _ _ _ _); [intros s E; injection E as <-; split; reflexivity|vm_compute; reflexivity|lia|lra|lra].
  - refine (LIN 1130000%Z _ _ _ _ _ _ _); [intros s E; apply (new_oetf 24 128 L lit _ _ _ _ _ _ _ E)|vm_compute; reflexivity|lia|lra|lra].
Qed.
Theorem C93_work_f64 (L : libm f64) : good_powf 53 1024 (l_powf L) -> @in_both_works _ (f64_ops L) (@work_f64 _ (f64_ops L)).
Proof.
  intros (PW & PZ & PN). set (lit := b_of_Q 53 1024). assert (U : bpow radix2 (- (53)) = / 9007199254740992) by reflexivity. assert (lit64_ok := litd_ok 53 1024 ltac:(lia) ltac:(lia)).
  assert (CRV := works_curve 53 1024 ltac:(lia) ltac:(lia) L lit). assert (LIN := works_linear 53 1024 ltac:(lia) ltac:(lia) L lit). assert (PWR := works_power 53 1024 ltac:(lia) ltac:(lia) L lit PW PZ PN). rewrite U in CRV, LIN, PWR.
  assert (P1 := srgb_pair 53 1024 ltac:(lia) ltac:(lia) L lit lit64_ok PW). assert (P2 := bt709_pair 53 1024 ltac:(lia) ltac:(lia) L lit lit64_ok PW). assert (P3 := bt2020_pair 53 1024 ltac:(lia) ltac:(lia) L lit lit64_ok PW). rewrite U in P1, P2, P3.
  unfold in_both_works, work_f64. repeat apply Forall_cons; [..|apply Forall_nil]; cbn [fst snd].
  - refine (CRV _ _ _ 73430000%Z _ _ (fun x F H => proj2 (P1 x F H)) _ _ _ _ _ _); [intros s E; injection E as <-; split; intro; reflexivity|vm_compute; reflexivity|lia|lra|lra|lra].
  - refine (CRV _ _ _ 160%Z _ _ (fun x F H => proj2 (P1 x F H)) _ _ _ _ _ _); [intros s E; destruct (new_oetf 53 1024 L lit _ _ _ _ _ _ _ E) as [EO ED]; rewrite EO, ED; split; intro; reflexivity|vm_compute; reflexivity|lia|lra|lra|lra].
  - refine (CRV _ _ _ 160%Z _ _ (fun x F H => proj2 (P2 x F H)) _ _ _ _ _ _); [intros s E; destruct (new_oetf 53 1024 L lit _ _ _ _ _ _ _ E) as [EO ED]; rewrite EO, ED; split; intro; reflexivity|vm_compute; reflexivity|lia|lra|lra|lra].
  - refine (CRV _ _ _ 160%Z _ _ (fun x F H => proj2 (P3 x F H)) _ _ _ _ _ _); [intros s E; destruct (new_oetf 53 1024 L lit _ _ _ _ _ _ _ E) as [EO ED]; rewrite EO, ED; split; intro; reflexivity|vm_compute; reflexivity|lia|lra|lra|lra].
  - refine (LIN 230%Z _ _ _ _ _ _ _); [intros s E; injection E as <-; split; reflexivity|vm_compute; reflexivity|lia|lra|lra].
  - refine (LIN 230%Z _ _ _ _ _ _ _); [intros s E; apply (new_oetf 53 1024 L lit _ _ _ _ _ _ _ E)|vm_compute; reflexivity|lia|lra|lra].
  - refine (PWR _ _ 130%Z _ _ _ eq_refl _ _ _ _); [change (IZR (1024 + 53)) with 1077; lra|lia|intros s E; apply (new_oetf 53 1024 L lit _ _ _ _ _ _ _ E)|vm_compute; reflexivity|lia|lra].
  - refine (PWR _ _ 130%Z _ _ _ eq_refl _ _ _ _); [change (IZR (1024 + 53)) with 1077; lra|lia|intros s E; apply (new_oetf 53 1024 L lit _ _ _ _ _ _ _ E)|vm_compute; reflexivity|lia|lra].
Qed.
(* a two-pixel sRGB image through ACEScg *)
Example C93_example : let O := f32_ops (lab_libm 24 128) in exists t mid, @ACES_CG _ O = Ret t /\
  @rgb_to_rgb _ O _ (fun c => c) (@SRGB _ O) t (map (@rgb_of_u8 _ O) [Rgb 255 0 1; Rgb 17 128 254]%Z) [rgb_zero; rgb_zero] = Ret (2%nat, mid) /\
  @rgb_to_rgb _ O _ (@rgb_to_u8 _ O) t (@SRGB _ O) mid [Rgb 0 0 0; Rgb 0 0 0]%Z = Ret (2%nat, [Rgb 255 0 1; Rgb 17 128 254]%Z).
Proof.
  intro O. pose proof (C93_work_f32 (lab_libm 24 128) (proj1 (lab_libm_ok 24 128 ltac:(lia) ltac:(lia)))) as H. inversion H as [|sn l (s & E & K) _ EQ]. cbn [fst snd] in E, K. injection E as <-.
  eapply Forall_forall in K; [|right; left; reflexivity]. destruct K as (t & ET & K). destruct (K 255%Z ltac:(lia) [Rgb 255 0 1; Rgb 17 128 254]%Z [Rgb 0 0 0; Rgb 0 0 0]%Z [rgb_zero; rgb_zero]) as (mid & M1 & M2); [repeat constructor; cbn; lia|reflexivity|reflexivity|].
  exists t, mid. split; [exact ET|]. split; [exact M1|exact M2].
Qed.
Print Assumptions C93_work_f64.
