(* C90: converting an image to the colour space it is already in *)
From Coq Require Import Reals ZArith QArith Qreals Lra Lia Bool List.
From Flocq Require Import Core BinarySingleNaN.
From Verif Require Import Outcome RealOps MathModel ColorModel SpaceModel TransformModel XReal FloatInst FloatProofs ErrProofs TransferProofs PropPixel RelErr CurveProofs PropCurve.
Import ListNotations.
Open Scope R_scope.

(* every image with codes 0 .. N is returned as it is, whatever the destination held *)
Definition image_kept {T} {O : RealOps T} (N : Z) (s : color_space T) : Prop :=
  forall (px to : list rgbu), Forall (fun c => (0 <= rgb_r c <= N)%Z /\ (0 <= rgb_g c <= N)%Z /\ (0 <= rgb_b c <= N)%Z) px -> length to = length px ->
    rgb_to_rgb (rgb_to_uint N) s s (map (rgb_of_uint N) px) to = Ret (length px, px).

Section Fmt.
Context (prec emax : Z) {Hp : Prec_gt_0 prec} {He : Prec_lt_emax prec emax}.
Notation fl := (binary_float prec emax).
Notation u := (bpow radix2 (- prec)).
Notation eta := (bpow radix2 (2 - emax - prec)).
Context (P5 : (24 <= prec)%Z) (E5 : (128 <= emax)%Z).
Context (L : libm fl) (lit : Q -> fl).
Notation ops := (b_ops prec emax L lit).

(* ---- the matrix is near the identity ---- *)
Definition near_row (D c : Z) (k a b c' : Z) : bool := ((Z.abs (a - 2 ^ k) <=? D) && (Z.abs b + Z.abs c' <=? c))%Z.
Definition near_id (k D c : Z) (m : mat33 fl) : bool :=
  ((0 <=? k)%Z && forallb (fun x => good prec emax k x) (mat_list m) &&
  match zmat prec emax k m with Mat33 a b c0 d e f g h i => near_row D c k a b c0 && near_row D c k e d f && near_row D c k i g h end)%bool.
Definition nearR (D c : R) (m : mat33 fl) : Prop := ffin prec emax m = true /\
  match m with Mat33 m0 m1 m2 m3 m4 m5 m6 m7 m8 =>
    (Rabs (B2R m0 - 1) <= D /\ Rabs (B2R m1) + Rabs (B2R m2) <= c) /\ (Rabs (B2R m4 - 1) <= D /\ Rabs (B2R m3) + Rabs (B2R m5) <= c) /\ (Rabs (B2R m8 - 1) <= D /\ Rabs (B2R m6) + Rabs (B2R m7) <= c) end.
Lemma near_id_ok k D c m : near_id k D c m = true -> nearR (IZR D / IZR (2 ^ k)) (IZR c / IZR (2 ^ k)) m.
Proof.
  intro C. unfold near_id in C. rewrite !andb_true_iff in C. destruct C as [[K G] C]. apply Z.leb_le in K.
  assert (ZA : forall x, In x (mat_list m) -> is_finite x = true /\ IZR (zent prec emax k x) = B2R x * IZR (2 ^ k)). { intros x I. apply zent_ok; [exact K|]. eapply forallb_forall in G; eassumption. }
  assert (O1 : 1 <= IZR (2 ^ k)) by (apply IZR_le; assert (0 < 2 ^ k)%Z by (apply Z.pow_pos_nonneg; lia); lia). set (o := (2 ^ k)%Z) in *.
  split. { unfold ffin. apply forallb_forall. intros x I. apply ZA, I. }
  destruct m as [m0 m1 m2 m3 m4 m5 m6 m7 m8]. unfold zmat in C. cbn [mx0 mx1 mx2 mx3 mx4 mx5 mx6 mx7 mx8] in C. rewrite !andb_true_iff in C. destruct C as [[C0 C1] C2].
  assert (W : forall a b c', In a (mat_list (Mat33 m0 m1 m2 m3 m4 m5 m6 m7 m8)) -> In b (mat_list (Mat33 m0 m1 m2 m3 m4 m5 m6 m7 m8)) -> In c' (mat_list (Mat33 m0 m1 m2 m3 m4 m5 m6 m7 m8)) ->
    near_row D c k (zent prec emax k a) (zent prec emax k b) (zent prec emax k c') = true -> Rabs (B2R a - 1) <= IZR D / IZR o /\ Rabs (B2R b) + Rabs (B2R c') <= IZR c / IZR o).
  { intros a b c' Ia Ib Ic H. unfold near_row in H. fold o in H. rewrite andb_true_iff, !Z.leb_le in H. destruct H as [H1 H2]. apply IZR_le in H1, H2. rewrite plus_IZR in H2. rewrite !abs_IZR in *. rewrite minus_IZR in H1.
    rewrite (proj2 (ZA a Ia)) in H1. rewrite (proj2 (ZA b Ib)), (proj2 (ZA c' Ic)) in H2. rewrite !Rabs_mult, (Rabs_pos_eq (IZR o)) in H2 by lra.
    replace (B2R a * IZR o - IZR o) with ((B2R a - 1) * IZR o) in H1 by ring. rewrite Rabs_mult, (Rabs_pos_eq (IZR o)) in H1 by lra.
    split; apply (Rmult_le_reg_r (IZR o)); try lra; unfold Rdiv; rewrite Rmult_assoc, Rinv_l by lra; lra. }
  split; [|split]; apply W; try assumption; cbn [In mat_list mx0 mx1 mx2 mx3 mx4 mx5 mx6 mx7 mx8]; auto 12.
Qed.

(* one row applied to decoded values *)
Lemma row_near a b c x y z t D C Y : is_finite a = true -> is_finite b = true -> is_finite c = true -> is_finite x = true -> is_finite y = true -> is_finite z = true ->
  0 <= D <= / 10000 -> 0 <= C <= / 10000 -> 0 <= Y <= 1.1 -> 0 <= t <= Y ->
  Rabs (edot prec emax a b c x y z - t) <= D * t + C * Y -> adot prec emax a b c x y z <= (1 + D) * t + C * Y ->
  is_finite (fdot prec emax a b c x y z) = true /\ Rabs (B2R (fdot prec emax a b c x y z) - t) <= (D + 4.01 * u) * t + (1.0001 * (C * Y) + 4 * eta).
Proof.
  intros Fa Fb Fc Fx Fy Fz HD HC HY Ht HE HA. destruct (CurveProofs.u24 prec P5) as [U0 U]. destruct (eta_le prec emax E5) as [T0 T]. pose proof (big emax ltac:(lia)) as G.
  assert (CY : 0 <= C * Y <= / 10000 * 1.1) by (split; [apply Rmult_le_pos|apply Rmult_le_compat]; lra). assert (DT : 0 <= D * t <= / 10000 * 1.1) by (split; [apply Rmult_le_pos|apply Rmult_le_compat]; lra).
  assert (F : is_finite (fdot prec emax a b c x y z) = true) by (apply fdot_finite; try assumption; [lia|lra]). split; [exact F|].
  pose proof (fdot_err prec emax a b c x y z ltac:(lia) F) as H.
  assert (4 * u * adot prec emax a b c x y z <= 4 * u * ((1 + D) * t + C * Y)) by (apply Rmult_le_compat_l; lra).
  assert (u * (D * t) <= / 10000 * (u * t)). { replace (u * (D * t)) with (D * (u * t)) by ring. apply Rmult_le_compat_r; [apply Rmult_le_pos; lra|lra]. } assert (0 <= u * t) by (apply Rmult_le_pos; lra).
  assert (u * (C * Y) <= / 10000000 * (C * Y)) by (apply Rmult_le_compat_r; lra).
  replace (B2R (fdot prec emax a b c x y z) - t) with ((B2R (fdot prec emax a b c x y z) - edot prec emax a b c x y z) + (edot prec emax a b c x y z - t)) by ring. eapply Rle_trans; [apply Rabs_triang|]. lra.
Qed.
Lemma rows_near m D C Y r g b : nearR D C m -> 0 <= D <= / 10000 -> 0 <= C <= / 10000 -> 0 <= Y <= 1.1 ->
  is_finite r = true -> is_finite g = true -> is_finite b = true -> 0 <= B2R r <= Y -> 0 <= B2R g <= Y -> 0 <= B2R b <= Y ->
  let e t := (D + 4.01 * u) * t + (1.0001 * (C * Y) + 4 * eta) in
  exists r' g' b', @mat_mul_rgb _ ops m (Rgb r g b) = Rgb r' g' b' /\ (is_finite r' = true /\ Rabs (B2R r' - B2R r) <= e (B2R r)) /\ (is_finite g' = true /\ Rabs (B2R g' - B2R g) <= e (B2R g)) /\ (is_finite b' = true /\ Rabs (B2R b' - B2R b) <= e (B2R b)).
Proof.
  intros (FM & NM) HD HC HY Fr Fg Fb Hr Hg Hb e. destruct m as [m0 m1 m2 m3 m4 m5 m6 m7 m8]. unfold ffin, mat_list in FM. cbn [forallb mx0 mx1 mx2 mx3 mx4 mx5 mx6 mx7 mx8] in FM. rewrite !andb_true_iff in FM.
  destruct FM as (N0 & N1 & N2 & N3 & N4 & N5 & N6 & N7 & N8 & _). destruct NM as ((A0 & A1) & (B0 & B1) & (C0 & C1)).
  do 3 eexists. split; [reflexivity|]. cbn [rgb_r rgb_g rgb_b mx0 mx1 mx2 mx3 mx4 mx5 mx6 mx7 mx8].
  assert (OFF : forall p q x y : R, Rabs p + Rabs q <= C -> 0 <= x <= Y -> 0 <= y <= Y -> Rabs (p * x) + Rabs (q * y) <= C * Y).
  { intros p q x y H X Z. rewrite !Rabs_mult, (Rabs_pos_eq x), (Rabs_pos_eq y) by lra. assert (Rabs p * x <= Rabs p * Y) by (apply Rmult_le_compat_l; [apply Rabs_pos|lra]). assert (Rabs q * y <= Rabs q * Y) by (apply Rmult_le_compat_l; [apply Rabs_pos|lra]).
    assert ((Rabs p + Rabs q) * Y <= C * Y) by (apply Rmult_le_compat_r; lra). lra. }
  assert (ON : forall p x : R, Rabs (p - 1) <= D -> 0 <= x <= Y -> Rabs (p * x - x) <= D * x /\ Rabs (p * x) <= (1 + D) * x).
  { intros p x P X. split. { replace (p * x - x) with ((p - 1) * x) by ring. rewrite Rabs_mult, (Rabs_pos_eq x) by lra. apply Rmult_le_compat_r; lra. } rewrite Rabs_mult, (Rabs_pos_eq x) by lra. apply Rmult_le_compat_r; [lra|]. apply Rabs_le_inv in P. apply Rabs_le. lra. }
  split; [|split]; (eapply row_near; try eassumption; unfold edot, adot).
  - destruct (ON _ _ A0 Hr) as [P1 P2]. pose proof (OFF _ _ _ _ A1 Hg Hb) as P3. apply Rabs_le_inv in P1. set (p := B2R m1 * B2R g) in *. set (q := B2R m2 * B2R b) in *. pose proof (Rle_abs p). pose proof (Rle_abs (- p)). pose proof (Rle_abs q). pose proof (Rle_abs (- q)). rewrite !Rabs_Ropp in *. apply Rabs_le. lra.
  - destruct (ON _ _ A0 Hr) as [P1 P2]. pose proof (OFF _ _ _ _ A1 Hg Hb) as P3. lra.
  - destruct (ON _ _ B0 Hg) as [P1 P2]. pose proof (OFF _ _ _ _ B1 Hr Hb) as P3. apply Rabs_le_inv in P1. set (p := B2R m3 * B2R r) in *. set (q := B2R m5 * B2R b) in *. pose proof (Rle_abs p). pose proof (Rle_abs (- p)). pose proof (Rle_abs q). pose proof (Rle_abs (- q)). rewrite !Rabs_Ropp in *. apply Rabs_le. lra.
  - destruct (ON _ _ B0 Hg) as [P1 P2]. pose proof (OFF _ _ _ _ B1 Hr Hb) as P3. lra.
  - destruct (ON _ _ C0 Hb) as [P1 P2]. pose proof (OFF _ _ _ _ C1 Hr Hg) as P3. apply Rabs_le_inv in P1. set (p := B2R m6 * B2R r) in *. set (q := B2R m7 * B2R g) in *. pose proof (Rle_abs p). pose proof (Rle_abs (- p)). pose proof (Rle_abs q). pose proof (Rle_abs (- q)). rewrite !Rabs_Ropp in *. apply Rabs_le. lra.
  - destruct (ON _ _ C0 Hb) as [P1 P2]. pose proof (OFF _ _ _ _ C1 Hr Hg) as P3. lra.
Qed.

(* ---- one channel: decode, move a little, encode, quantize ---- *)
Definition channel_ok (N : Z) (dec enc : fl -> fl) (Y D c : R) : Prop := forall k, (0 <= k <= N)%Z -> let x := @dequantize _ ops N k in
  is_finite (dec x) = true /\ 0 <= B2R (dec x) <= Y /\ forall v, is_finite v = true -> Rabs (B2R v - B2R (dec x)) <= D * B2R (dec x) + c -> @quantize _ ops N (enc v) = k.
Lemma code_at N k (x v : fl) E : (1 <= N <= 65535)%Z -> (0 <= k <= N)%Z -> x = @dequantize _ ops N k -> is_finite v = true -> Rabs (B2R v - B2R x) <= E -> IZR N * (E + 2 * u) < / 2 -> @quantize _ ops N v = k.
Proof.
  intros HN Hk -> F D B. set (x := @dequantize _ ops N k) in *. assert (PW : (65535 <= 2 ^ prec)%Z). { apply Z.le_trans with (2 ^ 24)%Z; [lia|]. apply Z.pow_le_mono_r; lia. }
  apply (quantize_half prec emax); try lia; [exact F|]. pose proof (dequantize_err prec emax L lit N k ltac:(lia) Hk) as DE. fold x in DE. assert (N1 : 1 <= IZR N) by (apply IZR_le; lia).
  replace (B2R v * IZR N - IZR k) with ((B2R v - B2R x) * IZR N + (B2R x * IZR N - IZR k)) by ring.
  pose proof (Rabs_triang ((B2R v - B2R x) * IZR N) (B2R x * IZR N - IZR k)) as T. rewrite Rabs_mult, (Rabs_pos_eq (IZR N)) in T by lra.
  assert (Rabs (B2R v - B2R x) * IZR N <= E * IZR N) by (apply Rmult_le_compat_r; lra). lra.
Qed.
Lemma moves_channel N dec enc E D c : (1 <= N <= 65535)%Z -> (forall x, is_finite x = true -> 0 <= B2R x <= 1 -> moves1 prec emax dec enc E x) -> 0 <= D -> 0 <= c -> 1.05 * D + c <= 0.001 ->
  IZR N * (E + 13 * (1.05 * D + c) + 2 * u) < / 2 -> channel_ok N dec enc 1.05 D c.
Proof.
  intros HN M D0 C0 DC B k Hk x. destruct (code_range prec emax P5 L lit N k HN Hk) as [F R]. apply (unit prec emax) in R. destruct (M x F R) as (Fd & Bd & V). split; [exact Fd|]. split; [exact Bd|].
  intros v Fv Hv. destruct (V v (1.05 * D + c) Fv ltac:(lra)) as [Fe He']. { eapply Rle_trans; [exact Hv|]. assert (D * B2R (dec x) <= D * 1.05) by (apply Rmult_le_compat_l; lra). lra. }
  apply (code_at N k x _ _ HN Hk eq_refl Fe He'). exact B.
Qed.
Lemma linear_channel N D c : (1 <= N <= 65535)%Z -> 0 <= D -> IZR N * (D + c + 2 * u) < / 2 -> channel_ok N (fun x => x) (fun x => x) 1 D c.
Proof.
  intros HN D0 B k Hk x. destruct (code_range prec emax P5 L lit N k HN Hk) as [F R]. apply (unit prec emax) in R. split; [exact F|]. split; [exact R|]. fold x in R. intros v Fv Hv. apply (code_at N k x v (D + c) HN Hk eq_refl Fv); [|exact B].
  eapply Rle_trans; [exact Hv|]. assert (D * B2R x <= D * 1) by (apply Rmult_le_compat_l; lra). lra.
Qed.
Context (LO : lit_ok prec emax lit).
Notation pw := (l_powf L).
Context (PW : powf_ok prec emax pw) (PZ : powf_zero prec emax pw) (PN : powf_neg prec emax pw) (E6 : IZR (emax + prec) * u <= / 10000) (E7 : (2 * prec <= emax)%Z).
Notation litd := (b_of_Q prec emax).
Lemma least_code N k : (1 <= N <= 255)%Z -> (1 <= k <= N)%Z -> / 256 <= B2R (@dequantize _ ops N k).
Proof.
  intros HN Hk. assert (PP : (65535 <= 2 ^ prec)%Z). { apply Z.le_trans with (2 ^ 24)%Z; [lia|]. apply Z.pow_le_mono_r; lia. } destruct (CurveProofs.u24 prec P5) as [U0 U].
  pose proof (dequantize_err prec emax L lit N k ltac:(lia) ltac:(lia)) as E. apply Rabs_le_inv in E. set (x := B2R _) in *. assert (1 <= IZR k) by (apply IZR_le; lia). assert (1 <= IZR N <= 255) by (split; apply IZR_le; lia).
  apply Rnot_lt_le. intro C. assert (0 <= IZR N * u <= 255 * / 10000000) by (split; [apply Rmult_le_pos|apply Rmult_le_compat]; lra). destruct (Rle_dec 0 x); [assert (x * IZR N <= / 256 * 255) by (apply Rmult_le_compat; lra)|assert (x * IZR N <= 0) by (rewrite <- (Rmult_0_l (IZR N)); apply Rmult_le_compat_r; lra)]; lra.
Qed.
Lemma power_channel N (g : Q) D c E : (1 <= N <= 255)%Z -> 2 <= Q2R g <= 2.7 -> 0 <= D <= / 10000 -> 0 <= c <= 1 -> c <= Rpower (/ 256) (Q2R g) / 2 -> (0 < c -> 1.001 * Rpower c (/ Q2R g) <= E) ->
  1.001 * D + 180 * u + c * Rpower (/ 256) (1 - Q2R g) <= E -> IZR N * (E + 2 * u) < / 2 ->
  channel_ok N (fun x => pw x (litd g)) (fun x => pw x (Bdiv mode_NE (litd 1.0) (litd g))) (1 + 4 * u) D c.
Proof.
  intros HN G HD HC C1 C2 C3 B k Hk x. pose proof (tiny_le emax E5) as [T0 T]. destruct (CurveProofs.u24 prec P5) as [U0 U]. destruct (litd_ok prec emax P5 E5) as [LD _]. destruct (LD g ltac:(lra)) as [Fg Rg].
  destruct (recip prec emax P5 E5 litd _ _ (litd_ok prec emax P5 E5) Fg Rg ltac:(lra)) as [Fp Rp]. assert (Rg' : rel (2 * u) (B2R (litd g)) (Q2R g)) by (eapply rel_weaken; [exact Rg| |]; lra).
  destruct (code_range prec emax P5 L lit N k ltac:(lia) Hk) as [F R]. fold x in F, R.
  destruct (power_decoded prec emax P5 E5 pw PW PZ (Q2R g) G (litd g) Fg Rg' x F R) as (Fd & Bd & _ & _). split; [exact Fd|]. split; [exact Bd|]. intros v Fv Hv.
  destruct (power_near prec emax P5 E5 pw PW PZ (Q2R g) G (litd g) (Bdiv mode_NE (litd 1.0) (litd g)) Fg Fp Rg' Rp PN E6 E7 x v D c (/ 256) E F ltac:(lra)) as [[X NN]|[Fe He']]; try assumption.
  - destruct (Z.eq_dec k 0) as [K0|K0]; [left|right; split; [apply least_code; lia|destruct R; lra]]. destruct R as [R|R]; [exact R|]. exfalso. assert (V0 : B2R x = 0); [|lra].
    assert (PP : (65535 <= 2 ^ prec)%Z). { apply Z.le_trans with (2 ^ 24)%Z; [lia|]. apply Z.pow_le_mono_r; lia. } destruct (dequantize_spec prec emax L lit N k ltac:(lia) Hk) as (_ & V & _). unfold x. rewrite V, K0. unfold Rdiv. rewrite Rmult_0_l. apply round_0. auto with typeclass_instances.
  - apply (is_nan_eq prec emax) in NN. rewrite NN. assert (K0 : k = 0%Z). { destruct (Z.eq_dec k 0) as [K0|K0]; [exact K0|]. pose proof (least_code N k HN ltac:(lia)) as LC. fold x in LC. lra. } rewrite K0. apply (quantize_nan prec emax).
  - apply (code_at N k x _ E ltac:(lia) Hk eq_refl Fe He' B).
Qed.

(* ---- pixels and images ---- *)
Lemma pixel_kept N s m dec enc Y D C : (forall c, cs_eotf s c = Rgb (dec (rgb_r c)) (dec (rgb_g c)) (dec (rgb_b c))) -> (forall c, cs_oetf s c = Rgb (enc (rgb_r c)) (enc (rgb_g c)) (enc (rgb_b c))) ->
  @rgb_to_rgb_matrix _ ops s s = Ret m -> nearR D C m -> 0 <= D <= / 10000 -> 0 <= C <= / 10000 -> 0 <= Y <= 1.1 -> channel_ok N dec enc Y (D + 4.01 * u) (1.0001 * (C * Y) + 4 * eta) -> @image_kept _ ops N s.
Proof.
  intros HD HE EM NM BD BC BY CH. intros px to IN LE. unfold rgb_to_rgb. rewrite EM. cbn [obind]. f_equal. revert to LE. induction IN as [|[r g b] px (Hr & Hg & Hb) IN IH]; intros to LE.
  - destruct to; [reflexivity|discriminate].
  - destruct to as [|t to]; [discriminate|]. cbn [map rgb_to_rgb_loop]. rewrite IH by (injection LE as LE; exact LE). cbn [length rgb_r rgb_g rgb_b] in *. f_equal. f_equal.
    unfold cs_encode, cs_decode, rgb_of_uint. rewrite HD. cbn [rgb_r rgb_g rgb_b]. destruct (CH r Hr) as (Fr & Br & Vr). destruct (CH g Hg) as (Fg & Bg & Vg). destruct (CH b Hb) as (Fb & Bb & Vb).
    destruct (rows_near m D C Y _ _ _ NM BD BC BY Fr Fg Fb Br Bg Bb) as (r' & g' & b' & E & (F1 & E1) & (F2 & E2) & (F3 & E3)). rewrite E, HE. unfold rgb_to_uint. cbn [rgb_r rgb_g rgb_b].
    rewrite (Vr r' F1 E1), (Vg g' F2 E2), (Vb b' F3 E3). reflexivity.
Qed.

(* the space, the largest code value of its images, and bounds (in units of 2^-200) on how far its matrix is from the identity *)
Definition kept_spaces : list (outcome (color_space fl) * Z) :=
  [(Ret (@SRGB _ ops), 255); (@SRGB_DRV _ ops, 16383); (@ITUR_BT709 _ ops, 511); (@ITUR_BT2020 _ ops, 511); (@DCI_P3 _ ops, 255); (@DCI_P3_D65 _ ops, 255); (Ret (@ACES _ ops), 65535); (@ACES_CG _ ops, 65535)]%Z.
Definition near_bounds : list (Z * Z) :=   (* 10^10 times the bounds *)
  [(500000, 300000); (1200, 1240); (1200, 1240); (1200, 1240); (1200, 876); (1200, 876); (1200, 1240); (1200, 1240)]%Z.
Definition near_check : bool :=
  forallb (fun sb => match fst (fst sb) with Ret s => match @rgb_to_rgb_matrix _ ops s s with Ret m => near_id 200 (fst (snd sb) * 2 ^ 200 / 10 ^ 10) (snd (snd sb) * 2 ^ 200 / 10 ^ 10) m | _ => false end | _ => false end) (combine kept_spaces near_bounds).
Lemma nearR_weaken D C D' C' m : nearR D C m -> D <= D' -> C <= C' -> nearR D' C' m.
Proof. intros (F & N) HD HC. split; [exact F|]. destruct m. destruct N as ((A & B) & (A' & B') & (A'' & B'')). repeat split; lra. Qed.
Lemma from_near (o : outcome (color_space fl)) D C : (0 <= D)%Z -> (0 <= C)%Z -> (match o with Ret s => match @rgb_to_rgb_matrix _ ops s s with Ret m => near_id 200 (D * 2 ^ 200 / 10 ^ 10) (C * 2 ^ 200 / 10 ^ 10) m | _ => false end | _ => false end) = true ->
  exists s m, o = Ret s /\ @rgb_to_rgb_matrix _ ops s s = Ret m /\ nearR (IZR D / 10000000000) (IZR C / 10000000000) m.
Proof.
  intros HD HC H. destruct o as [s| |]; try discriminate. destruct (rgb_to_rgb_matrix s s) as [m| |] eqn:E; try discriminate. exists s, m. split; [reflexivity|]. split; [exact E|]. apply near_id_ok in H.
  assert (O : 0 < IZR (2 ^ 200)) by (apply IZR_lt; reflexivity). change 10000000000 with (IZR (10 ^ 10)). assert (T : 0 < IZR (10 ^ 10)) by (apply IZR_lt; reflexivity).
  assert (W : forall z, (0 <= z)%Z -> IZR (z * 2 ^ 200 / 10 ^ 10) / IZR (2 ^ 200) <= IZR z / IZR (10 ^ 10)).
  { intros z Hz. pose proof (Z.mul_div_le (z * 2 ^ 200) (10 ^ 10) ltac:(reflexivity)) as M. set (q := (z * 2 ^ 200 / 10 ^ 10)%Z) in *. apply IZR_le in M. rewrite !mult_IZR in M.
    apply (Rmult_le_reg_r (IZR (10 ^ 10) * IZR (2 ^ 200))); [apply Rmult_lt_0_compat; assumption|]. replace (IZR q / IZR (2 ^ 200) * (IZR (10 ^ 10) * IZR (2 ^ 200))) with (IZR (10 ^ 10) * IZR q) by (field; lra).
    replace (IZR z / IZR (10 ^ 10) * (IZR (10 ^ 10) * IZR (2 ^ 200))) with (IZR z * IZR (2 ^ 200)) by (field; lra). exact M. }
  eapply nearR_weaken; [exact H|apply W, HD|apply W, HC].
Qed.

Theorem all_kept : near_check = true -> Forall (fun on => exists s, fst on = Ret s /\ forall N, (1 <= N <= snd on)%Z -> @image_kept _ ops N s) kept_spaces.
Proof.
  intro C. pose proof (u_24 prec P5) as U. pose proof (CurveProofs.u24 prec P5) as [U0 _]. destruct (eta_le prec emax E5) as [T0 T].
  unfold near_check, kept_spaces, near_bounds in C. cbn [combine forallb fst snd] in C. rewrite !andb_true_iff in C. destruct C as (C0 & C1 & C2 & C3 & C4 & C5 & C6 & C7 & _).
  assert (NB : forall N M, (1 <= N <= M)%Z -> 1 <= IZR N <= IZR M) by (intros N M H; split; apply IZR_le; lia).
  assert (TW : forall N M e, (1 <= N <= M)%Z -> 0 <= e -> IZR M * e < / 2 -> IZR N * e < / 2) by (intros N M e H He' B; apply Rle_lt_trans with (IZR M * e); [apply Rmult_le_compat_r; [exact He'|apply IZR_le; lia]|exact B]).
  assert (P1 : 1.001 * Rpower 8.77e-8 (/ 2.6) <= 0.00195). { assert (Rpower 8.77e-8 (/ 2.6) < 0.001945) by (apply (gt_frac_power _ _ 5 13); [lra|lra|cbn; lra|lia|]; lra). lra. }
  assert (P2 : Rpower (/ 256) (1 - 2.6) < 7200). { replace (1 - 2.6) with (- (1.6)) by lra. rewrite Rpower_Ropp. rewrite <- (Rinv_inv 7200). apply Rinv_lt_contravar; [apply Rmult_lt_0_compat; [lra|apply exp_pos]|]. apply (lt_frac_power _ _ 8 5); [lra|lra|cbn; lra|lia|]; lra. }
  assert (P3 : 8.77e-8 <= Rpower (/ 256) 2.6 / 2). { assert (5e-7 < Rpower (/ 256) 2.6) by (apply (lt_frac_power _ _ 13 5); [lra|lra|cbn; lra|lia|]; lra). lra. }
  assert (G : Q2R 2.6 = 2.6) by reflexivity.
  assert (PWR : forall s m N, cs_oetf s = @pow_curve _ ops (Bdiv mode_NE (litd 1.0) (litd 2.6)) -> cs_eotf s = @pow_curve _ ops (litd 2.6) -> @rgb_to_rgb_matrix _ ops s s = Ret m -> nearR (1200 / 10000000000) (876 / 10000000000) m -> (1 <= N <= 255)%Z -> @image_kept _ ops N s).
  { intros s m N EO ED EM NM HN. eapply (pixel_kept N s m (fun x => pw x (litd 2.6)) (fun x => pw x (Bdiv mode_NE (litd 1.0) (litd 2.6))) (1 + 4 * u)); try exact EM; try exact NM; try lra; [intro; rewrite ED; reflexivity|intro; rewrite EO; reflexivity|].
    assert (CB : 0 <= 1.0001 * (876 / 10000000000 * (1 + 4 * u)) + 4 * eta <= 8.77e-8) by lra.
    set (c := 1.0001 * (876 / 10000000000 * (1 + 4 * u)) + 4 * eta) in *. apply (power_channel N 2.6 _ c 0.00195); rewrite ?G; try lra; [exact HN|..].
    - intro C8. eapply Rle_trans; [|exact P1]. apply Rmult_le_compat_l; [lra|]. apply Rle_Rpower_l; lra.
    - assert (c * Rpower (/ 256) (1 - 2.6) <= 8.77e-8 * 7200) by (apply Rmult_le_compat; try lra; apply Rlt_le, exp_pos). lra.
    - apply (TW N 255%Z); [exact HN|lra|lra]. }
  assert (LIN : forall s m N, cs_oetf s = @enc_linear fl -> cs_eotf s = @dec_linear fl -> @rgb_to_rgb_matrix _ ops s s = Ret m -> nearR (1200 / 10000000000) (1240 / 10000000000) m -> (1 <= N <= 65535)%Z -> @image_kept _ ops N s).
  { intros s m N EO ED EM NM HN. eapply (pixel_kept N s m (fun x => x) (fun x => x) 1); try exact EM; try exact NM; try lra; [intros [? ? ?]; rewrite ED; reflexivity|intros [? ? ?]; rewrite EO; reflexivity|].
    apply linear_channel; [exact HN|lra|]. apply (TW N 65535%Z); [exact HN|lra|lra]. }
  assert (CRV : forall dec enc E D C8 M s m N, (forall x, is_finite x = true -> 0 <= B2R x <= 1 -> moves1 prec emax dec enc E x) -> (forall c, cs_eotf s c = Rgb (dec (rgb_r c)) (dec (rgb_g c)) (dec (rgb_b c))) -> (forall c, cs_oetf s c = Rgb (enc (rgb_r c)) (enc (rgb_g c)) (enc (rgb_b c))) ->
    @rgb_to_rgb_matrix _ ops s s = Ret m -> nearR D C8 m -> 0 <= E -> 0 <= D <= 0.00005 -> 0 <= C8 <= 0.00003 -> (1 <= N <= M)%Z -> (M <= 65535)%Z -> IZR M * (E + 13 * (1.05 * D + 1.06 * C8 + 6 * u) + 2 * u) < / 2 -> @image_kept _ ops N s).
  { intros dec enc E D C8 M s m N MV ED EO EM NM E0 D0 C80 HN HM B. eapply (pixel_kept N s m dec enc 1.05); try exact EM; try exact NM; try lra; try assumption.
    apply (moves_channel N dec enc E); [lia|exact MV|lra|lra|lra|]. apply (TW N M); [exact HN|lra|]. eapply Rle_lt_trans; [|exact B]. apply Rmult_le_compat_l; [|lra]. apply (NB N M) in HN. lra. }
  unfold kept_spaces. repeat apply Forall_cons; [..|apply Forall_nil]; cbn [fst snd].
  - destruct (from_near (Ret (@SRGB _ ops)) 500000 300000 ltac:(lia) ltac:(lia) C0) as (s & m & E & EM & NM). exists s. split; [exact E|]. injection E as <-. intros N HN.
    eapply (CRV _ _ _ _ _ 255%Z _ _ _ (fun x F H => proj2 (srgb_pair prec emax P5 E5 L lit LO PW x F H))); [intro; reflexivity|intro; reflexivity|exact EM|exact NM|..]; try lra; try lia.
  - apply from_near in C1; [|lia|lia]. destruct C1 as (s & m & E & EM & NM). exists s. split; [exact E|]. destruct (new_oetf prec emax L lit _ _ _ _ _ _ _ E) as [EO ED]. intros N HN.
    eapply (CRV _ _ _ _ _ 16383%Z _ _ _ (fun x F H => proj2 (srgb_pair prec emax P5 E5 L lit LO PW x F H))); [rewrite ED; reflexivity|rewrite EO; reflexivity|exact EM|exact NM|..]; try lra; try lia.
  - apply from_near in C2; [|lia|lia]. destruct C2 as (s & m & E & EM & NM). exists s. split; [exact E|]. destruct (new_oetf prec emax L lit _ _ _ _ _ _ _ E) as [EO ED]. intros N HN.
    eapply (CRV _ _ _ _ _ 511%Z _ _ _ (fun x F H => proj2 (bt709_pair prec emax P5 E5 L lit LO PW x F H))); [rewrite ED; reflexivity|rewrite EO; reflexivity|exact EM|exact NM|..]; try lra; try lia.
  - apply from_near in C3; [|lia|lia]. destruct C3 as (s & m & E & EM & NM). exists s. split; [exact E|]. destruct (new_oetf prec emax L lit _ _ _ _ _ _ _ E) as [EO ED]. intros N HN.
    eapply (CRV _ _ _ _ _ 511%Z _ _ _ (fun x F H => proj2 (bt2020_pair prec emax P5 E5 L lit LO PW x F H))); [rewrite ED; reflexivity|rewrite EO; reflexivity|exact EM|exact NM|..]; try lra; try lia.
  - apply from_near in C4; [|lia|lia]. destruct C4 as (s & m & E & EM & NM). exists s. split; [exact E|]. destruct (new_oetf prec emax L lit _ _ _ _ _ _ _ E) as [EO ED]. intros N HN. exact (PWR s m N EO ED EM NM HN).
  - apply from_near in C5; [|lia|lia]. destruct C5 as (s & m & E & EM & NM). exists s. split; [exact E|]. destruct (new_oetf prec emax L lit _ _ _ _ _ _ _ E) as [EO ED]. intros N HN. exact (PWR s m N EO ED EM NM HN).
  - destruct (from_near (Ret (@ACES _ ops)) 1200 1240 ltac:(lia) ltac:(lia) C6) as (s & m & E & EM & NM). exists s. split; [exact E|]. injection E as <-. intros N HN. apply (LIN (@ACES _ ops) m N); [reflexivity|reflexivity|exact EM|exact NM|exact HN].
  - apply from_near in C7; [|lia|lia]. destruct C7 as (s & m & E & EM & NM). exists s. split; [exact E|]. destruct (new_oetf prec emax L lit _ _ _ _ _ _ _ E) as [EO ED]. intros N HN. exact (LIN s m N EO ED EM NM HN).
Qed.

(* ---- a channel that is off picks up light from the other two ---- *)
Definition leak_check (A B : Z) (s : outcome (color_space fl)) : bool :=   (* bounds in units of 10^-12 *)
  match s with Ret s => match @rgb_to_rgb_matrix _ ops s s with Ret m => forallb (fun x => good prec emax 200 x) (mat_list m) && match zmat prec emax 200 m with Mat33 _ b c _ _ _ _ _ _ =>
    (0 <=? b)%Z && (0 <=? c)%Z && (A * 2 ^ 200 <=? (b + c) * 10 ^ 12)%Z && ((b + c) * 10 ^ 12 <=? B * 2 ^ 200)%Z end | _ => false end | _ => false end.
Lemma leak (o : outcome (color_space fl)) (g : Q) N k A B p1 p2 lo hi :
  (forall s, o = Ret s -> cs_oetf s = @pow_curve _ ops (Bdiv mode_NE (litd 1.0) (litd g)) /\ cs_eotf s = @pow_curve _ ops (litd g)) ->
  leak_check A B o = true -> 2 <= Q2R g <= 2.7 -> (1 <= k <= 10)%Z -> (k <= N <= 1023)%Z -> 1000 <= IZR A -> IZR B <= 100000000 -> 0 < p2 -> p2 <= / Q2R g - 0.000001 -> / Q2R g + 0.000001 <= p1 -> p1 <= 1 ->
  0 < lo < Rpower (0.999 * (IZR A / 1000000000000)) p1 -> Rpower (1.001 * (IZR B / 1000000000000)) p2 < hi -> IZR k - 0.49 <= IZR N * lo -> IZR N * hi <= IZR k + 0.49 ->
  exists s c, o = Ret s /\ (forall t, @rgb_to_rgb _ ops _ (@rgb_to_uint _ ops N) s s [@rgb_of_uint _ ops N (Rgb 0 N N)%Z] [t] = Ret (1%nat, [c])) /\ rgb_r c = k.
Proof.
  intros CV CK G Hk HN HA HB Q0 Q2 Q1 Q3 LOW HIG KL KH. destruct (CurveProofs.u24 prec P5) as [U0 U]. destruct (eta_le prec emax E5) as [T0 T].
  unfold leak_check in CK. destruct o as [s| |]; try discriminate. destruct (rgb_to_rgb_matrix s s) as [m| |] eqn:EM; try discriminate. rewrite andb_true_iff in CK. destruct CK as [GD CK].
  destruct (CV s eq_refl) as [EO ED]. exists s. eexists. split; [reflexivity|]. split. { intro t. unfold rgb_to_rgb. rewrite EM. cbn [obind rgb_to_rgb_loop fst snd]. reflexivity. }
  unfold cs_encode, cs_decode. rewrite EO, ED. unfold rgb_to_uint, rgb_of_uint, pow_curve, rgb_powf. cbn [rgb_r rgb_g rgb_b rpowf b_ops].
  assert (ZA : forall x, In x (mat_list m) -> is_finite x = true /\ IZR (zent prec emax 200 x) = B2R x * IZR (2 ^ 200)). { intros x I. apply zent_ok; [lia|]. eapply forallb_forall in GD; eassumption. }
  destruct m as [m0 m1 m2 m3 m4 m5 m6 m7 m8]. unfold zmat in CK. cbn [mx0 mx1 mx2 mx3 mx4 mx5 mx6 mx7 mx8] in CK. unfold mat_list in ZA. cbn [mx0 mx1 mx2 mx3 mx4 mx5 mx6 mx7 mx8] in ZA.
  destruct (ZA m0 ltac:(cbn; auto 12)) as [F0 _]. destruct (ZA m1 ltac:(cbn; auto 12)) as [F1 E1]. destruct (ZA m2 ltac:(cbn; auto 12)) as [F2 E2].
  rewrite !andb_true_iff, !Z.leb_le in CK. destruct CK as (((K1 & K2) & K3) & K4). apply IZR_le in K1, K2, K3, K4. rewrite !mult_IZR, plus_IZR in K3, K4. rewrite E1, E2 in *.
  assert (O : 0 < IZR (2 ^ 200)) by (apply IZR_lt; reflexivity). change (IZR (10 ^ 12)) with 1000000000000 in *. set (w := IZR (2 ^ 200)) in *. clearbody w.
  assert (M1 : 0 <= B2R m1) by (apply (Rmult_le_reg_r w); lra). assert (M2 : 0 <= B2R m2) by (apply (Rmult_le_reg_r w); lra).
  assert (MA : IZR A / 1000000000000 <= B2R m1 + B2R m2) by (apply (Rmult_le_reg_r w); lra). assert (MB : B2R m1 + B2R m2 <= IZR B / 1000000000000) by (apply (Rmult_le_reg_r w); lra). clear ZA E1 E2 K1 K2 K3 K4 GD.
  set (a := IZR A / 1000000000000) in *. set (b := IZR B / 1000000000000) in *. assert (AB : 1e-9 <= a /\ b <= 0.0001) by (unfold a, b; lra). clearbody a b.
  destruct (litd_ok prec emax P5 E5) as [LD _]. destruct (LD g ltac:(lra)) as [Fg Rg]. destruct (recip prec emax P5 E5 litd _ _ (litd_ok prec emax P5 E5) Fg Rg ltac:(lra)) as [Fp Rp].
  set (fp := Bdiv mode_NE (litd 1.0%Q) (litd g)) in *. assert (Rg' : rel (2 * u) (B2R (litd g)) (Q2R g)) by (eapply rel_weaken; [exact Rg| |]; lra). pose proof (rel_bounds _ _ _ Rp) as BP.
  assert (IG : / 2.7 <= / Q2R g <= / 2) by (split; apply Rinv_le_contravar; lra). assert (EX : p2 <= B2R fp <= p1) by (clear - BP Q2 Q1 U0 U IG; nra). clear BP Rp.
  assert (NN : (1 <= N <= 65535)%Z) by lia. assert (PP : (65535 <= 2 ^ prec)%Z). { apply Z.le_trans with (2 ^ 24)%Z; [lia|]. apply Z.pow_le_mono_r; lia. }
  assert (N1 : 1 <= IZR N <= 1023) by (split; apply IZR_le; lia).
  destruct (code_range prec emax P5 L lit N 0 NN ltac:(lia)) as [X0 W0]. destruct (code_range prec emax P5 L lit N N NN ltac:(lia)) as [X1 W1].
  destruct (dequantize_spec prec emax L lit N 0 ltac:(lia) ltac:(lia)) as (_ & V0 & _). destruct (dequantize_spec prec emax L lit N N ltac:(lia) ltac:(lia)) as (_ & V1 & _).
  unfold Rdiv in V0, V1. rewrite Rmult_0_l, round_0 in V0 by auto with typeclass_instances. rewrite Rinv_r in V1 by lra.
  assert (R1 : round radix2 (SpecFloat.fexp prec emax) ZnearestE 1 = 1). { apply round_generic; auto with typeclass_instances. change 1 with (bpow radix2 0). apply generic_format_bpow. unfold SpecFloat.fexp, SpecFloat.emin. lia. } rewrite R1 in V1. clear R1.
  destruct (power_decoded prec emax P5 E5 pw PW PZ (Q2R g) G (litd g) Fg Rg' _ X0 W0) as (Y0 & _ & D0 & _). specialize (D0 V0).
  destruct (power_decoded prec emax P5 E5 pw PW PZ (Q2R g) G (litd g) Fg Rg' _ X1 W1) as (Y1 & _ & _ & D1). specialize (D1 ltac:(rewrite V1; lra)). rewrite V1 in D1.
  replace (Rpower 1 (Q2R g)) with 1 in D1 by (unfold Rpower; rewrite ln_1, Rmult_0_r, exp_0; reflexivity). apply rel_bounds in D1.
  set (z := pw (@dequantize _ ops N 0) (litd g)) in *. set (y := pw (@dequantize _ ops N N) (litd g)) in *. clearbody z y. clear X0 X1 W0 W1 V0 V1.
  change (rgb_r (@mat_mul_rgb _ ops (Mat33 m0 m1 m2 m3 m4 m5 m6 m7 m8) (Rgb z y y))) with (fdot prec emax m0 m1 m2 z y y).
  assert (SE : edot prec emax m0 m1 m2 z y y = (B2R m1 + B2R m2) * B2R y) by (unfold edot; rewrite D0; ring). assert (SA : adot prec emax m0 m1 m2 z y y = (B2R m1 + B2R m2) * B2R y). { unfold adot. rewrite D0, Rmult_0_r, Rabs_R0, !Rabs_pos_eq by (apply Rmult_le_pos; lra). ring. }
  set (q := B2R m1 + B2R m2) in *. assert (QY : (1 - 71 * u) * q <= q * B2R y <= (1 + 71 * u) * q) by (clear - D1 M1 M2 MA AB U0 U; nra). assert (UQ : 0 <= u * q <= / 10000000 * q) by (clear - MA AB U0 U; nra).
  pose proof (big emax ltac:(lia)) as BG. assert (FD : is_finite (fdot prec emax m0 m1 m2 z y y) = true) by (apply fdot_finite; try assumption; [lia|rewrite SA; lra]).
  pose proof (fdot_err prec emax m0 m1 m2 z y y ltac:(lia) FD) as FE. rewrite SE, SA in FE. apply Rabs_le_inv in FE. set (v := fdot prec emax m0 m1 m2 z y y) in *. clearbody v.
  assert (UU : u * (q * B2R y) <= / 10000000 * (1.001 * q)) by (apply Rmult_le_compat; lra). assert (VB : 0.999 * a <= B2R v <= 1.001 * b) by lra.
  assert (NEG : forall x e f, 0 < x <= 1 -> e <= f -> Rpower x f <= Rpower x e). { clear. intros x e f X E. unfold Rpower. apply exp_le. assert (ln x <= 0) by (destruct (proj2 X) as [Y|Y]; [rewrite <- ln_1; apply Rlt_le, ln_increasing; lra|rewrite Y, ln_1; lra]). nra. }
  assert (PL : lo < Rpower (B2R v) (B2R fp)). { eapply Rlt_le_trans; [apply LOW|]. apply Rle_trans with (Rpower (0.999 * a) (B2R fp)); [|apply Rle_Rpower_l; lra]. apply NEG; lra. }
  assert (PH : Rpower (B2R v) (B2R fp) < hi). { eapply Rle_lt_trans; [|exact HIG]. apply Rle_trans with (Rpower (1.001 * b) (B2R fp)); [apply Rle_Rpower_l; lra|]. apply NEG; lra. }
  pose proof (tiny_le emax E5) as [TN0 TN]. assert (K1 : 1 <= IZR k <= 10) by (split; apply IZR_le; lia).
  assert (LL : 0.0004 <= lo) by (clear - KL N1 K1 LOW; nra).
  destruct (PW v fp FD Fp ltac:(lra) ltac:(lra) ltac:(lra)) as [FV RV]. apply rel_bounds in RV. set (r := Rpower (B2R v) (B2R fp)) in *. clearbody r.
  apply (quantize_half prec emax); try lia; [exact FV|]. set (e := B2R (pw v fp)) in *. clearbody e.
  assert (NR : IZR k - 0.49 <= IZR N * r <= IZR k + 0.49) by (clear - PL PH KL KH N1; nra). assert (UN : 0 <= u * (IZR N * r) <= / 10000000 * 11) by (split; [apply Rmult_le_pos; lra|apply Rmult_le_compat; lra]).
  assert (IZR N * u <= 1023 * / 10000000) by (apply Rmult_le_compat; lra). assert (e * IZR N <= r * (1 + 4 * u) * IZR N /\ r * (1 - 4 * u) * IZR N <= e * IZR N) by (split; apply Rmult_le_compat_r; lra).
  assert (Rabs (e * IZR N - IZR k) <= 0.4901) by (apply Rabs_le; lra). lra.
Qed.
End Fmt.

(* ---- the two formats ---- *)
Lemma near32 (L : libm f32) : near_check 24 128 L (fun q => f64_to_f32 (b_of_Q 53 1024 q)) = true.
Proof. vm_compute. reflexivity. Qed.
Lemma near64 (L : libm f64) : near_check 53 1024 L (b_of_Q 53 1024) = true.
Proof. vm_compute. reflexivity. Qed.
(* what a powf of either format has to satisfy: accurate to 4 units on (0, 2], zero at zero, and not a number at negative bases *)
Definition good_powf (p e : Z) {Hp : Prec_gt_0 p} {He : Prec_lt_emax p e} (pw : binary_float p e -> binary_float p e -> binary_float p e) : Prop := powf_ok p e pw /\ powf_zero p e pw /\ powf_neg p e pw.
Theorem C90_own_space_f32 (L : libm f32) : good_powf 24 128 (l_powf L) ->
  Forall (fun on => exists s, fst on = Ret s /\ forall N, (1 <= N <= snd on)%Z -> @image_kept _ (f32_ops L) N s) (kept_spaces 24 128 L (fun q => f64_to_f32 (b_of_Q 53 1024 q))).
Proof.
  intros (PW & PZ & PN). refine (all_kept 24 128 ltac:(lia) ltac:(lia) L _ lit32_ok PW PZ PN _ ltac:(lia) (near32 L)). change (bpow radix2 (- (24))) with (/ 16777216). change (IZR (128 + 24)) with 152. lra.
Qed.
Theorem C90_own_space_f64 (L : libm f64) : good_powf 53 1024 (l_powf L) ->
  Forall (fun on => exists s, fst on = Ret s /\ forall N, (1 <= N <= snd on)%Z -> @image_kept _ (f64_ops L) N s) (kept_spaces 53 1024 L (b_of_Q 53 1024)).
Proof.
  intros (PW & PZ & PN). refine (all_kept 53 1024 ltac:(lia) ltac:(lia) L _ (litd_ok 53 1024 ltac:(lia) ltac:(lia)) PW PZ PN _ ltac:(lia) (near64 L)). change (bpow radix2 (- (53))) with (/ 9007199254740992). change (IZR (1024 + 53)) with 1077. lra.
Qed.
(* Adobe RGB's printed matrices are not inverse enough for its curve even at eight bits: cyan gains a red *)
Lemma adobe_bounds : 0 < 0.0043 < Rpower (0.999 * (7900000 / 1000000000000)) (6 / 13) /\ Rpower (1.001 * (8200000 / 1000000000000)) (5 / 11) < 0.0050 /\ 5 / 11 <= / Q2R 2.19921875 - 0.000001 /\ / Q2R 2.19921875 + 0.000001 <= 6 / 13.
Proof.
  split; [split; [lra|]|]. { apply (lt_frac_power _ _ 6 13); [lra|lra|cbn; lra|lia|lra]. } split. { apply (gt_frac_power _ _ 5 11); [lra|lra|cbn; lra|lia|lra]. }
  replace (Q2R 2.19921875) with 2.19921875 by reflexivity. split; lra.
Qed.
Lemma adobe_leak (p e : Z) {Hp : Prec_gt_0 p} {He : Prec_lt_emax p e} (P5 : (24 <= p)%Z) (E5 : (128 <= e)%Z) (L : libm (binary_float p e)) lit : powf_ok p e (l_powf L) -> powf_zero p e (l_powf L) ->
  leak_check p e L lit 7900000 8200000 (Ret (@ADOBE_RGB_1998 _ (b_ops p e L lit))) = true ->
  exists c, (forall t, @rgb_to_rgb _ (b_ops p e L lit) _ (@rgb_to_uint _ (b_ops p e L lit) 255) (@ADOBE_RGB_1998 _ (b_ops p e L lit)) (@ADOBE_RGB_1998 _ (b_ops p e L lit)) [@rgb_of_uint _ (b_ops p e L lit) 255 (Rgb 0 255 255)%Z] [t] = Ret (1%nat, [c])) /\ rgb_r c = 1%Z.
Proof.
  intros PW PZ C. destruct adobe_bounds as (B1 & B2 & B3 & B4).
  destruct (leak p e P5 E5 L lit PW PZ (Ret (@ADOBE_RGB_1998 _ (b_ops p e L lit))) 2.19921875 255 1 7900000 8200000 (6 / 13) (5 / 11) 0.0043 0.0050) as (s & c & E & H & R1); try assumption; try lra; try lia.
  - intros s E. injection E as <-. split; reflexivity.
  - injection E as <-. exists c. split; assumption.
Qed.
Theorem C90_adobe_refuted : exists c : rgbu, rgb_r c = 0%Z /\
  (forall L : libm f32, powf_ok 24 128 (l_powf L) -> powf_zero 24 128 (l_powf L) -> exists d, rgb_r d = 1%Z /\
     forall t, @rgb_to_rgb _ (f32_ops L) _ (@rgb_to_u8 _ (f32_ops L)) (@ADOBE_RGB_1998 _ (f32_ops L)) (@ADOBE_RGB_1998 _ (f32_ops L)) [@rgb_of_u8 _ (f32_ops L) c] [t] = Ret (1%nat, [d])) /\
  (forall L : libm f64, powf_ok 53 1024 (l_powf L) -> powf_zero 53 1024 (l_powf L) -> exists d, rgb_r d = 1%Z /\
     forall t, @rgb_to_rgb _ (f64_ops L) _ (@rgb_to_u8 _ (f64_ops L)) (@ADOBE_RGB_1998 _ (f64_ops L)) (@ADOBE_RGB_1998 _ (f64_ops L)) [@rgb_of_u8 _ (f64_ops L) c] [t] = Ret (1%nat, [d])).
Proof.
  exists (Rgb 0 255 255)%Z. split; [reflexivity|]. split; intros L PW PZ.
  - destruct (adobe_leak 24 128 ltac:(lia) ltac:(lia) L (fun q => f64_to_f32 (b_of_Q 53 1024 q)) PW PZ) as (c & H & E); [vm_compute; reflexivity|]. exists c. split; [exact E|exact H].
  - destruct (adobe_leak 53 1024 ltac:(lia) ltac:(lia) L (b_of_Q 53 1024) PW PZ) as (c & H & E); [vm_compute; reflexivity|]. exists c. split; [exact E|exact H].
Qed.
(* in f32 the P3 matrices are only good for eight bits *)
Theorem C90_deep_p3_refuted : exists (N : Z) (c : rgbu), rgb_r c = 0%Z /\ (rgb_g c <= N)%Z /\ (rgb_b c <= N)%Z /\ (N <= 1023)%Z /\
  forall L : libm f32, powf_ok 24 128 (l_powf L) -> powf_zero 24 128 (l_powf L) -> exists s d, @DCI_P3 _ (f32_ops L) = Ret s /\ rgb_r d = 2%Z /\
    forall t, @rgb_to_rgb _ (f32_ops L) _ (@rgb_to_uint _ (f32_ops L) N) s s [@rgb_of_uint _ (f32_ops L) N c] [t] = Ret (1%nat, [d]).
Proof.
  exists 1023%Z, (Rgb 0 1023 1023)%Z. cbn [rgb_r rgb_g rgb_b]. split; [reflexivity|]. split; [lia|]. split; [lia|]. split; [lia|]. intros L PW PZ.
  assert (G : Q2R 2.6 = 2.6) by reflexivity.
  destruct (leak 24 128 ltac:(lia) ltac:(lia) L (fun q => f64_to_f32 (b_of_Q 53 1024 q)) PW PZ (@DCI_P3 _ (f32_ops L)) 2.6 1023 2 72000 73000 (7 / 18) (3 / 8) 0.0016 0.0022) as (s & c & E & H & R1); rewrite ?G; try lra; try lia.
  - intros s E. apply (new_oetf 24 128 L _ _ _ _ _ _ _ _ E).
  - vm_compute. reflexivity.
  - split; [lra|]. apply (lt_frac_power _ _ 7 18); [lra|lra|cbn; lra|lia|lra].
  - apply (gt_frac_power _ _ 3 8); [lra|lra|cbn; lra|lia|lra].
  - exists s, c. split; [exact E|]. split; [exact R1|exact H].
Qed.
(* a powf as assumed exists: the rounded one *)
Definition full_pow (p e : Z) {Hp : Prec_gt_0 p} {He : Prec_lt_emax p e} (x y : binary_float p e) : binary_float p e := if Rlt_bool (B2R x) 0 then B754_nan else rounded_pow p e x y.
Lemma full_pow_ok (p e : Z) {Hp : Prec_gt_0 p} {He : Prec_lt_emax p e} : (24 <= p)%Z -> (128 <= e)%Z -> good_powf p e (full_pow p e).
Proof.
  intros P5 E5. destruct (rounded_pow_ok p e P5 E5) as [PW PZ]. unfold full_pow. split; [|split].
  - intros x y Fx Fy X Y T. rewrite Rlt_bool_false by lra. apply PW; assumption.
  - intros x y Fx Fy X Y. rewrite Rlt_bool_false by lra. apply PZ; assumption.
  - intros x y Fx Fy X Y. rewrite Rlt_bool_true by lra. reflexivity.
Qed.
(* three eight-bit P3 pixels, one with two channels off *)
Example C90_example : exists L : libm f32, good_powf 24 128 (l_powf L) /\ exists s, @DCI_P3 _ (f32_ops L) = Ret s /\
  let px := [Rgb 0 255 0; Rgb 1 2 3; Rgb 255 254 128]%Z in forall to, length to = 3%nat -> @rgb_to_rgb _ (f32_ops L) _ (@rgb_to_u8 _ (f32_ops L)) s s (map (@rgb_of_u8 _ (f32_ops L)) px) to = Ret (3%nat, px).
Proof.
  set (L := some_libm (B754_zero false : f32) (full_pow 24 128)). pose proof (full_pow_ok 24 128 ltac:(lia) ltac:(lia) : good_powf 24 128 (l_powf L)) as PW. exists L. split; [exact PW|].
  pose proof (C90_own_space_f32 L PW) as A. unfold kept_spaces in A. repeat match goal with H : Forall _ (_ :: _) |- _ => apply Forall_cons_iff in H; destruct H as [? H] end.
  match goal with H : exists s, fst (DCI_P3, _) = Ret s /\ _ |- _ => destruct H as (s & E & K) end. exists s. split; [exact E|]. intros px to LT. apply (K 255%Z); [cbn; lia| |exact LT].
  unfold px. repeat apply Forall_cons; [..|apply Forall_nil]; cbn [rgb_r rgb_g rgb_b]; lia.
Qed.
Print Assumptions C90_own_space_f32.
Print Assumptions C90_adobe_refuted.
