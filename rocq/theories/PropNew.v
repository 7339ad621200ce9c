(* C116: ColorSpaceRGB::new in floating point *)
From Coq Require Import Reals ZArith QArith Qreals Lra Lia Bool List.
From Flocq Require Import Core BinarySingleNaN.
From Verif Require Import Outcome RealOps MathModel ColorModel SpaceModel XReal SpecLin MatProofs AdaptProofs SpaceProofs FloatInst FloatProofs ErrProofs CurveProofs PropDaylight PropCat PropInv PropBuild.
Import ListNotations.
Open Scope R_scope.
Local Notation f64 := (binary_float 53 1024).
Local Notation f32 := (binary_float 24 128).

Lemma triple_diff m e a b c a' b' c' : 0 <= m -> 0 <= e -> Rabs a <= m -> Rabs b <= m -> Rabs c <= m -> Rabs a' <= m -> Rabs b' <= m -> Rabs c' <= m -> Rabs (a - a') <= e -> Rabs (b - b') <= e -> Rabs (c - c') <= e -> Rabs (a * b * c - a' * b' * c') <= 3 * m ^ 2 * e.
Proof.
  intros M0 E0 A B C A' B' C' DA DB DC. replace (a * b * c - a' * b' * c') with ((a - a') * (b * c) + (b - b') * (a' * c) + (c - c') * (a' * b')) by ring. eapply Rle_trans; [apply Rabs_triang|]. eapply Rle_trans; [apply Rplus_le_compat_r, Rabs_triang|].
  assert (P : forall x y z, Rabs x <= e -> Rabs y <= m -> Rabs z <= m -> Rabs (x * (y * z)) <= e * (m * m)) by (intros x y z HX HY HZ; rewrite !Rabs_mult; apply Rmult_le_compat; try apply Rabs_pos; [apply Rmult_le_pos; apply Rabs_pos|exact HX|apply Rmult_le_compat; try apply Rabs_pos; assumption]).
  pose proof (P _ _ _ DA B C). pose proof (P _ _ _ DB A' C). pose proof (P _ _ _ DC A' B'). replace (3 * m ^ 2 * e) with (e * (m * m) + e * (m * m) + e * (m * m)) by ring. lra.
Qed.
Lemma det_diff m e (A B : RM) : 0 <= m -> 0 <= e -> all9 (fun x => Rabs x <= m) A -> all9 (fun x => Rabs x <= m) B -> on9 (fun _ x y => Rabs (x - y) <= e) A A B -> Rabs (mdet A - mdet B) <= 18 * m ^ 2 * e.
Proof.
  intros M0 E0. destruct A as [a0 a1 a2 a3 a4 a5 a6 a7 a8], B as [b0 b1 b2 b3 b4 b5 b6 b7 b8]. cbn [all9 on9]. intros (A0 & A1 & A2 & A3 & A4 & A5 & A6 & A7 & A8) (B0 & B1 & B2 & B3 & B4 & B5 & B6 & B7 & B8) (D0 & D1 & D2 & D3 & D4 & D5 & D6 & D7 & D8). cbn [mdet].
  pose proof (triple_diff m e a0 a4 a8 b0 b4 b8 M0 E0 A0 A4 A8 B0 B4 B8 D0 D4 D8) as T1. pose proof (triple_diff m e a0 a5 a7 b0 b5 b7 M0 E0 A0 A5 A7 B0 B5 B7 D0 D5 D7) as T2. pose proof (triple_diff m e a1 a3 a8 b1 b3 b8 M0 E0 A1 A3 A8 B1 B3 B8 D1 D3 D8) as T3.
  pose proof (triple_diff m e a1 a5 a6 b1 b5 b6 M0 E0 A1 A5 A6 B1 B5 B6 D1 D5 D6) as T4. pose proof (triple_diff m e a2 a3 a7 b2 b3 b7 M0 E0 A2 A3 A7 B2 B3 B7 D2 D3 D7) as T5. pose proof (triple_diff m e a2 a4 a6 b2 b4 b6 M0 E0 A2 A4 A6 B2 B4 B6 D2 D4 D6) as T6.
  set (k := m ^ 2 * e) in *. replace (18 * m ^ 2 * e) with (18 * k) by (unfold k; ring). replace (3 * m ^ 2 * e) with (3 * k) in * by (unfold k; ring). apply Rabs_le_inv in T1, T2, T3, T4, T5, T6. apply Rabs_le. lra.
Qed.
Section Fmt.
Context (prec emax : Z) {Hp : Prec_gt_0 prec} {He : Prec_lt_emax prec emax}.
Notation fl := (binary_float prec emax).
Notation u := (bpow radix2 (- prec)).
(* error of the matrix from XYZ, in half-units; bound on its entries; bound on its determinant *)
Definition build_err (mm del : R) : R := (12 + 463 * mm) / del + mm + 0.001.
Definition det_low (mm del D : R) : R := D - 18 * (mm + 0.01) ^ 2 * (build_err mm del * u).
Definition off_affine (M : RM) : Prop := match M with Mat33 _ _ c _ _ f _ _ i => 0.011 <= c \/ 0.011 <= f \/ 0.011 <= Rabs (i - 1) end.
Definition near_white (e : R) (m : mat33 fl) (w : vec) : Prop := match mapp (mR prec emax m) (white1 w) with (p, q, r) => Rabs (p - 1) <= e * u /\ Rabs (q - 1) <= e * u /\ Rabs (r - 1) <= e * u end.
Definition good_new {Op : RealOps fl} : Prop := forall del mm D r g b w oetf eotf, chrom prec emax r -> chrom prec emax g -> chrom prec emax b -> chrom prec emax w -> 0.2 <= B2R (xyy_y w) ->
  0.0275 <= del -> del <= Rabs (weight (rv prec emax g) (rv prec emax b) (rv prec emax w)) -> del <= Rabs (weight (rv prec emax b) (rv prec emax r) (rv prec emax w)) -> del <= Rabs (weight (rv prec emax r) (rv prec emax g) (rv prec emax w)) ->
  0 <= mm <= 999 -> all9 (fun x => Rabs x <= mm) (exact_build (rv prec emax r) (rv prec emax g) (rv prec emax b) (rv prec emax w)) ->
  off_affine (exact_build (rv prec emax r) (rv prec emax g) (rv prec emax b) (rv prec emax w)) -> D <= Rabs (mdet (exact_build (rv prec emax r) (rv prec emax g) (rv prec emax b) (rv prec emax w))) ->
  build_err mm del * u <= 0.01 -> 57 * (mm + 0.01) ^ 3 * u <= det_low mm del D ->
  exists m n, cs_new r g b w oetf eotf = Ret (ColorSpace m n r g b w oetf eotf) /\
    near9 prec emax (build_err mm del) m (exact_build (rv prec emax r) (rv prec emax g) (rv prec emax b) (rv prec emax w)) /\ near_white (12 * build_err mm del) m (rv prec emax w) /\
    near_inverse prec emax (mm + 0.01) (det_low mm del D) n m /\
    near_one prec (3 * (mm + 0.01) * (13 * (mm + 0.01) ^ 2 / det_low mm del D + 113 * (mm + 0.01) ^ 5 / det_low mm del D ^ 2)) (mmul (mR prec emax n) (mR prec emax m)).
Lemma white_size w : chrom prec emax w -> 0.2 <= B2R (xyy_y w) -> Rabs (v0 (white1 (rv prec emax w))) <= 5.5 /\ Rabs (v1 (white1 (rv prec emax w))) <= 1 /\ Rabs (v2 (white1 (rv prec emax w))) <= 5.5.
Proof.
  intros (_ & _ & X & _ & Z) Y. unfold white1, rv, v0, v1, v2. cbn [fst snd]. assert (I : 0 < / B2R (xyy_y w) <= 5) by (split; [apply Rinv_0_lt_compat; lra|]; apply (Rmult_le_reg_r (B2R (xyy_y w))); [lra|]; rewrite Rinv_l by lra; lra).
  assert (H : forall x, Rabs x <= 1.1 -> Rabs (x / B2R (xyy_y w)) <= 5.5). { intros x HX. unfold Rdiv. rewrite Rabs_mult, (Rabs_pos_eq (/ _)) by lra. replace 5.5 with (1.1 * 5) by lra. apply Rmult_le_compat; try lra. apply Rabs_pos. }
  split; [apply H; exact X|]. split; [rewrite Rabs_R1; lra|apply H; exact Z].
Qed.
Lemma good_new_ok (P5 : (24 <= prec)%Z) {Op : RealOps fl} : @good_build prec emax Op -> @good_inverse prec emax Op -> @good_new Op.
Proof.
  intros GB GI del mm D r g b w oetf eotf Cr Cg Cb Cw Ww DL Dr Dg Db MM EM OA HD EB HL. specialize (GB del mm r g b w Cr Cg Cb Cw Ww DL Dr Dg Db ltac:(lra) EM). change ((12 + 463 * mm) / del + mm + 0.001) with (build_err mm del) in GB.
  set (m := build_xyz_to_rgb_matrix r g b w) in *. set (e := build_err mm del) in *. destruct (CurveProofs.u24 prec P5) as [U0 U].
  assert (WN : weight (rv prec emax g) (rv prec emax b) (rv prec emax w) <> 0 /\ weight (rv prec emax b) (rv prec emax r) (rv prec emax w) <> 0 /\ weight (rv prec emax r) (rv prec emax g) (rv prec emax w) <> 0) by (repeat split; intro Z0; rewrite Z0, Rabs_R0 in *; lra). destruct WN as (W1 & W2 & W3).
  destruct (C115_exact (rv prec emax r) (rv prec emax g) (rv prec emax b) (rv prec emax w)) as (_ & XW & _); [unfold rv, v1; cbn [fst snd]; lra|exact W1|exact W2|exact W3|]. destruct (white_size w Cw Ww) as (S0 & S1 & S2).
  set (M := exact_build _ _ _ _) in *. set (w1 := white1 _) in *. assert (E0 : 0 <= e * u). { revert GB. unfold near9. destruct m, M. intros ((_ & H) & _). eapply Rle_trans; [apply Rabs_pos|exact H]. }
  assert (TM : tame9 prec emax (mm + 0.01) m).
  { revert GB EM. clear - EB. unfold near9, tame9. destruct m, M. cbn [on9 all9]. intros ([F0 H0] & [F1 H1] & [F2 H2] & [F3 H3] & [F4 H4] & [F5 H5] & [F6 H6] & [F7 H7] & [F8 H8]) (A0 & A1 & A2 & A3 & A4 & A5 & A6 & A7 & A8).
    assert (ST : forall x y, Rabs (x - y) <= e * u -> Rabs y <= mm -> Rabs x <= mm + 0.01) by (intros x y HX HY; replace x with ((x - y) + y) by ring; eapply Rle_trans; [apply Rabs_triang|]; lra).
    repeat split; try assumption; eapply ST; eassumption. }
  assert (NA : not_affine prec emax m).
  { revert GB OA. clear - EB U U0. unfold near9, off_affine, not_affine. destruct m, M. cbn [on9 MathModel.mx2 MathModel.mx5 MathModel.mx8]. intros ([F0 H0] & [F1 H1] & [F2 H2] & [F3 H3] & [F4 H4] & [F5 H5] & [F6 H6] & [F7 H7] & [F8 H8]) [O|[O|O]].
    - left. apply Rabs_le_inv in H2. lra.
    - right. left. apply Rabs_le_inv in H5. lra.
    - right. right. match type of O with _ <= Rabs (?y - 1) => match goal with |- _ <= Rabs (?x - 1) => assert (TR : Rabs (y - 1) <= Rabs (x - 1) + Rabs (x - y)) by (replace (y - 1) with ((x - 1) + - (x - y)) by ring; eapply Rle_trans; [apply Rabs_triang|]; rewrite Rabs_Ropp; lra) end end. lra. }
  assert (DM : det_low mm del D <= Rabs (mdet (mR prec emax m))).
  { assert (DD : Rabs (mdet (mR prec emax m) - mdet M) <= 18 * (mm + 0.01) ^ 2 * (e * u)).
    { apply det_diff; [lra|exact E0| | |].
      - revert TM. clear. unfold tame9, mR. destruct m. cbn [all9 map9]. tauto.
      - revert EM. clear. destruct M. cbn [all9]. intros (A0 & A1 & A2 & A3 & A4 & A5 & A6 & A7 & A8). repeat split; lra.
      - revert GB. clear. unfold near9, mR. destruct m, M. cbn [on9 map9]. tauto. }
    unfold det_low. fold e. assert (Rabs (mdet M) <= Rabs (mdet (mR prec emax m)) + Rabs (mdet (mR prec emax m) - mdet M)). { replace (mdet M) with (mdet (mR prec emax m) + - (mdet (mR prec emax m) - mdet M)) at 1 by ring. eapply Rle_trans; [apply Rabs_triang|]. rewrite Rabs_Ropp. lra. } lra. }
  destruct (GI (mm + 0.01) (det_low mm del D) m ltac:(lra) TM NA HL DM) as (n & EN & NI & NO). exists m, n. split.
  - unfold cs_new. fold m. rewrite EN. reflexivity.
  - split; [exact GB|]. split; [|split; assumption]. unfold near_white. fold w1. revert GB XW. clear - S0 S1 S2. clearbody w1 m M. destruct w1 as [[x y] z]. unfold v0, v1, v2 in *. cbn [fst snd] in *. unfold near9, mR. destruct m, M. cbn [on9 map9 mapp].
    intros ([F0 H0] & [F1 H1] & [F2 H2] & [F3 H3] & [F4 H4] & [F5 H5] & [F6 H6] & [F7 H7] & [F8 H8]) XW. injection XW as X0 X1 X2. set (k := e * u) in *. replace (12 * e * u) with (12 * k) by (unfold k; ring). clearbody k.
    assert (ST : forall p q s p' q' s', Rabs (p - p') <= k -> Rabs (q - q') <= k -> Rabs (s - s') <= k -> p' * x + q' * y + s' * z = 1 -> Rabs (p * x + q * y + s * z - 1) <= 12 * k).
    { intros p q s p' q' s' HP HQ HS E1. replace (p * x + q * y + s * z - 1) with ((p - p') * x + (q - q') * y + (s - s') * z) by (rewrite <- E1; ring). eapply Rle_trans; [apply Rabs_triang|]. eapply Rle_trans; [apply Rplus_le_compat_r, Rabs_triang|]. rewrite !Rabs_mult.
      assert (Rabs (p - p') * Rabs x <= k * 5.5) by (apply Rmult_le_compat; try apply Rabs_pos; assumption). assert (Rabs (q - q') * Rabs y <= k * 1) by (apply Rmult_le_compat; try apply Rabs_pos; assumption). assert (Rabs (s - s') * Rabs z <= k * 5.5) by (apply Rmult_le_compat; try apply Rabs_pos; assumption). lra. }
    split; [|split]; eapply ST; eassumption.
Qed.
End Fmt.

Theorem C116_new_f32 : forall L : libm f32, @good_new 24 128 (f32_ops L).
Proof. intro L. apply good_new_ok; [lia|apply C115_build_f32|apply C114_inverse_f32]. Qed.
Print Assumptions C116_new_f32.
Theorem C116_new_f64 : forall L : libm f64, @good_new 53 1024 (f64_ops L).
Proof. intro L. apply good_new_ok; [lia|apply C115_build_f64|apply C114_inverse_f64]. Qed.
Print Assumptions C116_new_f64.

Local Notation single q := (f64_to_f32 (b_of_Q 53 1024 q)).
(* the sRGB primaries in f32: new() succeeds, the white goes to (1, 1, 1) within 0.008, and the two matrices undo each other within 0.0016 *)
Example C116_example : forall L : libm f32, forall oetf eotf, exists m n, @cs_new _ (f32_ops L) ex_r ex_g ex_b ex_w oetf eotf = Ret (ColorSpace m n ex_r ex_g ex_b ex_w oetf eotf) /\
  near_white 24 128 130100 m (rv 24 128 ex_w) /\ near_one 24 27000 (mmul (mR 24 128 n) (mR 24 128 m)).
Proof.
  intros L oetf eotf. destruct C115_example as (CR & CG & CB & CW & YW & W1 & W2 & W3 & EM & _).
  assert (V1 : is_finite (single 0.64%Q) = true /\ B2R (single 0.64%Q) = 5368709 / 8388608) by by_sf. assert (V2 : is_finite (single 0.33%Q) = true /\ B2R (single 0.33%Q) = 11072963 / 33554432) by by_sf. assert (V3 : is_finite (single 0.30%Q) = true /\ B2R (single 0.30%Q) = 5033165 / 16777216) by by_sf. assert (V4 : is_finite (single 0.60%Q) = true /\ B2R (single 0.60%Q) = 5033165 / 8388608) by by_sf.
  assert (V5 : is_finite (single 0.15%Q) = true /\ B2R (single 0.15%Q) = 5033165 / 33554432) by by_sf. assert (V6 : is_finite (single 0.06%Q) = true /\ B2R (single 0.06%Q) = 16106127 / 268435456) by by_sf. assert (V7 : is_finite (single 0.3127%Q) = true /\ B2R (single 0.3127%Q) = 10492471 / 33554432) by by_sf. assert (V8 : is_finite (single 0.3290%Q) = true /\ B2R (single 0.3290%Q) = 689963 / 2097152) by by_sf.
  destruct V1 as [_ V1], V2 as [_ V2], V3 as [_ V3], V4 as [_ V4], V5 as [_ V5], V6 as [_ V6], V7 as [_ V7], V8 as [_ V8]. set (q := B2R (single 1.0%Q)).
  assert (ER : rv 24 128 ex_r = (5368709 / 8388608, 11072963 / 33554432, q)) by (unfold rv, ex_r; cbn [xyy_x xyy_y xyy_Y]; rewrite V1, V2; reflexivity). assert (EG : rv 24 128 ex_g = (5033165 / 16777216, 5033165 / 8388608, q)) by (unfold rv, ex_g; cbn [xyy_x xyy_y xyy_Y]; rewrite V3, V4; reflexivity).
  assert (EB : rv 24 128 ex_b = (5033165 / 33554432, 16106127 / 268435456, q)) by (unfold rv, ex_b; cbn [xyy_x xyy_y xyy_Y]; rewrite V5, V6; reflexivity). assert (EW : rv 24 128 ex_w = (10492471 / 33554432, 689963 / 2097152, q)) by (unfold rv, ex_w; cbn [xyy_x xyy_y xyy_Y]; rewrite V7, V8; reflexivity).
  clearbody q. clear V1 V2 V3 V4 V5 V6 V7 V8. pose proof (C116_new_f32 L 0.14 3.25 4.7 ex_r ex_g ex_b ex_w oetf eotf CR CG CB CW YW ltac:(lra) W1 W2 W3 ltac:(lra) EM) as H. rewrite ER, EG, EB, EW in *. set (vr := (5368709 / 8388608, 11072963 / 33554432, q)) in *. set (vg := (5033165 / 16777216, 5033165 / 8388608, q)) in *. set (vb := (5033165 / 33554432, 16106127 / 268435456, q)) in *. set (vw := (10492471 / 33554432, 689963 / 2097152, q)) in *.
  assert (K1 : weight vg vb vw = 0.14440122196149452 + (weight vg vb vw - 0.14440122196149452)) by ring.
  assert (D1 : 0.1444 <= weight vg vb vw <= 0.14441) by (unfold weight, dotv, crossv, chroma, white1, vg, vb, vw, v0, v1, v2; cbn [fst snd]; lra). assert (D2 : 0.267 <= weight vb vr vw <= 0.26712) by (unfold weight, dotv, crossv, chroma, white1, vr, vb, vw, v0, v1, v2; cbn [fst snd]; lra). assert (D3 : 0.269 <= weight vr vg vw <= 0.26964) by (unfold weight, dotv, crossv, chroma, white1, vg, vr, vw, v0, v1, v2; cbn [fst snd]; lra). clear K1.
  assert (OA : off_affine (exact_build vr vg vb vw)).
  { unfold off_affine, exact_build, rows. right. left. unfold row_of. set (k := weight vb vr vw) in *. assert (0.011 <= v2 (crossv (chroma vb) (chroma vr))) by (unfold crossv, chroma, vr, vb, v0, v1, v2; cbn [fst snd]; lra). replace (v2 (vscale (/ k) (crossv (chroma vb) (chroma vr)))) with (v2 (crossv (chroma vb) (chroma vr)) / k) by (destruct (crossv _ _) as [[? ?] ?]; unfold vscale, v2, Rdiv; cbn [fst snd]; ring).
    apply (Rmult_le_reg_r k); [lra|]. unfold Rdiv. rewrite Rmult_assoc, Rinv_l by lra. lra. }
  assert (HD : 4.7 <= Rabs (mdet (exact_build vr vg vb vw))).
  { assert (ED : mdet (exact_build vr vg vb vw) = mdet (rows (crossv (chroma vg) (chroma vb)) (crossv (chroma vb) (chroma vr)) (crossv (chroma vr) (chroma vg))) / (weight vg vb vw * weight vb vr vw * weight vr vg vw)).
    { unfold exact_build, row_of. generalize (weight vg vb vw) (weight vb vr vw) (weight vr vg vw) D1 D2 D3. intros k1 k2 k3 H1 H2 H3. generalize (crossv (chroma vg) (chroma vb)) (crossv (chroma vb) (chroma vr)) (crossv (chroma vr) (chroma vg)). intros [[? ?] ?] [[? ?] ?] [[? ?] ?]. unfold rows, vscale, v0, v1, v2. cbn [fst snd mdet]. field. lra. }
    assert (ND : 0.0501 <= mdet (rows (crossv (chroma vg) (chroma vb)) (crossv (chroma vb) (chroma vr)) (crossv (chroma vr) (chroma vg)))) by (unfold rows, crossv, chroma, vr, vg, vb, v0, v1, v2; cbn [fst snd mdet]; lra). rewrite ED. clear - ND D1 D2 D3.
    set (N := mdet _) in *. clearbody N. revert D1 D2 D3. generalize (weight vg vb vw) (weight vb vr vw) (weight vr vg vw). intros k1 k2 k3 D1 D2 D3. assert (P1 : 0.03 <= k1 * k2 <= 0.038575) by (split; nra). assert (P2 : 0.005 <= k1 * k2 * k3 <= 0.010402) by (split; nra).
    assert (Q1 : 4.7 <= N / (k1 * k2 * k3)) by (apply (Rmult_le_reg_r (k1 * k2 * k3)); [lra|]; unfold Rdiv; rewrite (Rmult_assoc N), (Rinv_l (k1 * k2 * k3)) by lra; lra). rewrite Rabs_pos_eq; lra. }
  assert (BE : build_err 3.25 0.14 <= 10838) by (unfold build_err; lra). change (bpow radix2 (- (24))) with (/ 16777216) in H. assert (DL : 4.57 <= det_low 24 3.25 0.14 4.7) by (unfold det_low, build_err; change (bpow radix2 (- (24))) with (/ 16777216); lra).
  destruct (H OA HD) as (m & n & E & _ & NW & _ & NO); [lra|unfold det_low in *; lra|]. exists m, n. split; [exact E|]. split.
  - revert NW. unfold near_white. destruct (mapp _ _) as [[x y] z]. change (bpow radix2 (- (24))) with (/ 16777216). intros (A & B & C). repeat split; lra.
  - revert NO. set (d := det_low _ _ _ _) in *. clearbody d. assert (I : 0 < / d <= 0.219) by (split; [apply Rinv_0_lt_compat; lra|]; apply (Rmult_le_reg_r d); [lra|]; rewrite Rinv_l by lra; lra). assert (I2 : / (d ^ 2) <= 0.048). { replace (/ d ^ 2) with (/ d * / d) by (field; lra). assert (/ d * / d <= 0.219 * 0.219) by (apply Rmult_le_compat; lra). lra. }
    set (E1 := 3 * _ * _). assert (EE : E1 <= 27000) by (unfold E1, Rdiv; lra). clearbody E1. unfold near_one. change (bpow radix2 (- (24))) with (/ 16777216). generalize (mmul (mR 24 128 n) (mR 24 128 m)). intros [p0 p1 p2 p3 p4 p5 p6 p7 p8]. unfold mone. cbn [on9]. intros (A0 & A1 & A2 & A3 & A4 & A5 & A6 & A7 & A8). repeat split; lra.
Qed.
