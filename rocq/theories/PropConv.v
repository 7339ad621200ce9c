(* C95: converting an image in floating point against converting it in exact arithmetic *)
From Coq Require Import Reals ZArith QArith Qreals Lra Lia Bool List.
From Flocq Require Import Core BinarySingleNaN.
From Verif Require Import Outcome RealOps MathModel ColorModel SpaceModel TransformModel XReal SpecLin FloatInst FloatProofs ErrProofs TransferProofs PropPixel RelErr CurveProofs PropCurve PropSelf MatProofs ConvMat ConvProofs.
Import ListNotations.
Open Scope R_scope.

(* ---- the transfer functions of the nine spaces ---- *)
Inductive kind := KSrgb | KBt709 | KBt2020 | KPow (g : Q) | KLin.
Definition kdec {T} {O : RealOps T} (k : kind) : T -> T :=
  match k with KSrgb => dec_srgb_t | KBt709 => dec_bt709_t | KBt2020 => dec_bt2020_t | KPow g => fun x => rpowf x (rlitd g) | KLin => fun x => x end.
Definition kenc {T} {O : RealOps T} (k : kind) : T -> T :=
  match k with KSrgb => enc_srgb_t | KBt709 => enc_bt709_t | KBt2020 => enc_bt2020_t | KPow g => fun x => rpowf x (rdiv (rlitd 1.0%Q) (rlitd g)) | KLin => fun x => x end.
Definition kinds : list kind := [KSrgb; KSrgb; KBt709; KBt2020; KPow 2.6%Q; KPow 2.6%Q; KLin; KLin; KPow 2.19921875%Q].
Definition acts {T} (s : color_space T) (dec enc : T -> T) : Prop := (forall c, cs_eotf s c = per_channel dec c) /\ (forall c, cs_oetf s c = per_channel enc c).
Lemma new_acts {T} {O : RealOps T} r g b w e d s : cs_new r g b w e d = Ret s -> cs_oetf s = e /\ cs_eotf s = d.
Proof. unfold cs_new. destruct (unwrap _); cbn [obind]; [|discriminate..]. intros [= <-]. split; reflexivity. Qed.
Lemma all_act {T} {O : RealOps T} : Forall2 (fun k o => forall s, o = Ret s -> acts s (kdec k) (kenc k)) kinds spaces.
Proof.
  unfold kinds, spaces. repeat apply Forall2_cons; [..|apply Forall2_nil]; intros s E.
  1, 7, 9: injection E as <-; split; reflexivity.
  all: apply new_acts in E; destruct E as [E1 E2]; split; intro c; rewrite ?E1, ?E2; reflexivity.
Qed.

(* ---- fitting a float matrix to the exact one ---- *)
Section Fmt.
Context (prec emax : Z) {Hp : Prec_gt_0 prec} {He : Prec_lt_emax prec emax}.
Notation fl := (binary_float prec emax).
Notation u := (bpow radix2 (- prec)).
Notation eta := (bpow radix2 (2 - emax - prec)).
Context (P5 : (24 <= prec)%Z) (E5 : (128 <= emax)%Z).
Context (L : libm fl) (lit : Q -> fl).
Notation ops := (b_ops prec emax L lit).

(* |z/n| and |x - z/n| in units of 2^-k / n *)
Definition rup (k z : Z) : Z := (Z.abs z * 2 ^ k)%Z.
Definition gap (k : Z) (n : positive) (x : fl) (z : Z) : Z := Z.abs (zent prec emax k x * Zpos n - z * 2 ^ k).
(* e and D count units u: inputs within e u give an output within D u *)
Definition row_fits (k e D : Z) (n : positive) (a b c : fl) (qa qb qc : Z) : bool :=
  let p := (rup k qa + rup k qb + rup k qc)%Z in let d := (gap k n a qa + gap k n b qb + gap k n c qc)%Z in let o := (2 ^ k * Zpos n)%Z in
  (good prec emax k a && good prec emax k b && good prec emax k c && ((100 * e + 402) * p + 101 * 2 ^ prec * d + o <=? 100 * D * o) && (p <=? 5 * o) && (1000 * d <=? o))%Z%bool.
Definition mat_fits (k e D : Z) (m : mat33 fl) (q : imat) : bool :=
  match m, q with Mat33 a b c d e0 f g h i, IM (Mat33 a' b' c' d' e' f' g' h' i') n => row_fits k e D n a b c a' b' c' && row_fits k e D n d e0 f d' e' f' && row_fits k e D n g h i g' h' i' end.
Definition kerr (k : kind) : Z := match k with KPow _ => 13 | KLin => 1 | _ => 32 end.
Lemma unit_pos k n : (0 <= k)%Z -> 0 < IZR (2 ^ k) /\ 0 < IZR (Zpos n) /\ IZR (2 ^ k * Zpos n) = IZR (2 ^ k) * IZR (Zpos n).
Proof. intro K. repeat split; [apply IZR_lt, Z.pow_pos_nonneg; lia|apply IZR_lt; lia|apply mult_IZR]. Qed.
Lemma rup_ok k n z : (0 <= k)%Z -> Rabs (Q2R (z # n)) * IZR (2 ^ k * Zpos n) <= IZR (rup k z).
Proof.
  intro K. destruct (unit_pos k n K) as (P & N & E). unfold rup, Q2R. cbn [Qnum Qden]. rewrite E, mult_IZR, abs_IZR, Rabs_mult, (Rabs_pos_eq (/ _)) by (apply Rlt_le, Rinv_0_lt_compat, N). right. field. lra.
Qed.
Lemma gap_ok k n x z : (0 <= k)%Z -> good prec emax k x = true -> is_finite x = true /\ Rabs (B2R x - Q2R (z # n)) * IZR (2 ^ k * Zpos n) <= IZR (gap k n x z).
Proof.
  intros K G. destruct (zent_ok prec emax k x K G) as [F V]. split; [exact F|]. destruct (unit_pos k n K) as (P & N & E). unfold gap. rewrite abs_IZR, minus_IZR, !mult_IZR, V. right.
  rewrite <- (Rabs_pos_eq (IZR (2 ^ k) * IZR (Zpos n))) by (apply Rlt_le, Rmult_lt_0_compat; assumption). rewrite <- Rabs_mult. f_equal. unfold Q2R. cbn [Qnum Qden]. field. lra.
Qed.
Lemma term_err m q x y e : 0 <= y <= 1 -> 0 <= e <= / 10000 -> Rabs (x - y) <= e -> Rabs (m * x - q * y) <= e * Rabs q + 1.0001 * Rabs (m - q) /\ Rabs (m * x) <= 1.0001 * (Rabs q + Rabs (m - q)).
Proof.
  intros Y E H. apply Rabs_le_inv in H. assert (X : Rabs x <= 1.0001) by (apply Rabs_le; lra). assert (XY : Rabs (x - y) <= e) by (apply Rabs_le; lra). pose proof (Rabs_pos q). pose proof (Rabs_pos (m - q)). split.
  - replace (m * x - q * y) with (q * (x - y) + (m - q) * x) by ring. eapply Rle_trans; [apply Rabs_triang|]. rewrite !Rabs_mult. assert (Rabs q * Rabs (x - y) <= Rabs q * e) by (apply Rmult_le_compat_l; lra). assert (Rabs (m - q) * Rabs x <= Rabs (m - q) * 1.0001) by (apply Rmult_le_compat_l; lra). lra.
  - rewrite Rabs_mult, (Rmult_comm 1.0001). apply Rmult_le_compat; try apply Rabs_pos; [|exact X]. replace m with (q + (m - q)) at 1 by ring. apply Rabs_triang.
Qed.
Lemma row_ok k e D n a b c za zb zc x y z X Y Z : (0 <= k)%Z -> (0 <= e <= 100)%Z -> row_fits k e D n a b c za zb zc = true -> is_finite x = true -> is_finite y = true -> is_finite z = true -> 0 <= X <= 1 -> 0 <= Y <= 1 -> 0 <= Z <= 1 ->
  Rabs (B2R x - X) <= IZR e * u -> Rabs (B2R y - Y) <= IZR e * u -> Rabs (B2R z - Z) <= IZR e * u ->
  is_finite (fdot prec emax a b c x y z) = true /\ Rabs (B2R (fdot prec emax a b c x y z) - (Q2R (za # n) * X + Q2R (zb # n) * Y + Q2R (zc # n) * Z)) <= IZR D * u /\ Rabs (Q2R (za # n) * X + Q2R (zb # n) * Y + Q2R (zc # n) * Z) <= 5.
Proof.
  intros K E RF Fx Fy Fz HX HY HZ Ex Ey Ez. unfold row_fits in RF. cbv zeta in RF. rewrite !andb_true_iff, !Z.leb_le in RF. destruct RF as [[[[[Ga Gb] Gc] R1] R2] R3].
  destruct (CurveProofs.u24 prec P5) as [U0 U]. destruct (eta_le prec emax E5) as [T0 T]. pose proof (big emax ltac:(lia)) as BG.
  destruct (gap_ok k n a za K Ga) as [Fa Da]. destruct (gap_ok k n b zb K Gb) as [Fb Db]. destruct (gap_ok k n c zc K Gc) as [Fc Dc]. pose proof (rup_ok k n za K) as Pa. pose proof (rup_ok k n zb K) as Pb. pose proof (rup_ok k n zc K) as Pc.
  set (qa := Q2R (za # n)) in *. set (qb := Q2R (zb # n)) in *. set (qc := Q2R (zc # n)) in *.
  destruct (unit_pos k n K) as (OP & ON & OE). set (oz := (2 ^ k * Zpos n)%Z) in *. assert (O : 0 < IZR oz) by (rewrite OE; apply Rmult_lt_0_compat; assumption). clearbody oz.
  apply IZR_le in R1, R2, R3. rewrite !plus_IZR, !mult_IZR, !plus_IZR in R1. rewrite mult_IZR, !plus_IZR in R2, R3. rewrite mult_IZR in R1. set (o := IZR oz) in *.
  assert (EE : 0 <= IZR e <= 100) by (split; apply IZR_le; lia).
  set (rho := Rabs (qa) + Rabs (qb) + Rabs (qc)). set (del := Rabs (B2R a - qa) + Rabs (B2R b - qb) + Rabs (B2R c - qc)).
  assert (RO : rho * o <= IZR (rup k za) + IZR (rup k zb) + IZR (rup k zc)) by (unfold rho; lra). assert (DO : del * o <= IZR (gap k n a za) + IZR (gap k n b zb) + IZR (gap k n c zc)) by (unfold del; lra).
  set (p := IZR (rup k za) + IZR (rup k zb) + IZR (rup k zc)) in *. set (d := IZR (gap k n a za) + IZR (gap k n b zb) + IZR (gap k n c zc)) in *.
  assert (R0 : 0 <= rho) by (unfold rho; pose proof (Rabs_pos (qa)); pose proof (Rabs_pos (qb)); pose proof (Rabs_pos (qc)); lra). assert (D0 : 0 <= del) by (unfold del; pose proof (Rabs_pos (B2R a - qa)); pose proof (Rabs_pos (B2R b - qb)); pose proof (Rabs_pos (B2R c - qc)); lra).
  assert (RH : rho <= 5) by (apply (Rmult_le_reg_r o); lra). assert (DL : del <= / 1000) by (apply (Rmult_le_reg_r o); lra).
  assert (TP : IZR (2 ^ prec) * u = 1). { change 2%Z with (radix_val radix2). rewrite IZR_Zpower by lia. rewrite <- bpow_plus. replace (prec + - prec)%Z with 0%Z by lia. reflexivity. } set (tp := IZR (2 ^ prec)) in *. assert (TP0 : 0 <= tp) by (apply IZR_le, Z.pow_nonneg; lia).
  assert (MAIN : (IZR e + 4.02) * u * rho + 1.01 * del + 0.01 * u <= IZR D * u).
  { assert (A1 : (100 * IZR e + 402) * (rho * o) <= (100 * IZR e + 402) * p) by (apply Rmult_le_compat_l; lra). assert (A2 : 101 * tp * (del * o) <= 101 * tp * d) by (apply Rmult_le_compat_l; lra).
    assert (A3 : ((100 * IZR e + 402) * rho + 101 * tp * del + 1) * o <= 100 * IZR D * o) by lra. apply Rmult_le_reg_r in A3; [|exact O]. assert (A4 : ((100 * IZR e + 402) * rho + 101 * tp * del + 1) * u <= 100 * IZR D * u) by (apply Rmult_le_compat_r; lra).
    replace (((100 * IZR e + 402) * rho + 101 * tp * del + 1) * u) with (100 * ((IZR e + 4.02) * u * rho) + 101 * (tp * u) * del + u) in A4 by lra. rewrite TP in A4. lra. }
  assert (EU : 0 <= IZR e * u <= / 10000). { split; [apply Rmult_le_pos; lra|]. apply Rle_trans with (100 * / 10000000); [apply Rmult_le_compat; lra|lra]. }
  destruct (term_err (B2R a) (qa) (B2R x) X _ HX EU Ex) as [A1 A2]. destruct (term_err (B2R b) (qb) (B2R y) Y _ HY EU Ey) as [B1 B2]. destruct (term_err (B2R c) (qc) (B2R z) Z _ HZ EU Ez) as [C1 C2].
  assert (AD : adot prec emax a b c x y z <= 1.0001 * (rho + del)) by (unfold adot, rho, del; lra).
  assert (F : is_finite (fdot prec emax a b c x y z) = true) by (apply fdot_finite; try assumption; [lia|lra]). split; [exact F|]. split.
  - pose proof (fdot_err prec emax a b c x y z ltac:(lia) F) as H. assert (H2 : 4 * u * adot prec emax a b c x y z <= 4 * u * (1.0001 * (rho + del))) by (apply Rmult_le_compat_l; lra).
    assert (ED : Rabs (edot prec emax a b c x y z - (qa * X + qb * Y + qc * Z)) <= IZR e * u * rho + 1.0001 * del).
    { unfold edot. apply Rabs_le_inv in A1, B1, C1. replace (IZR e * u * rho) with (IZR e * u * Rabs (qa) + IZR e * u * Rabs (qb) + IZR e * u * Rabs (qc)) by (unfold rho; ring). unfold del. apply Rabs_le. lra. }
    assert (u * del <= / 10000000 * del) by (apply Rmult_le_compat_r; lra). assert (0 <= u * rho) by (apply Rmult_le_pos; lra). apply Rabs_le_inv in H, ED. apply Rabs_le. lra.
  - eapply Rle_trans; [|exact RH]. unfold rho. assert (Q : forall q t, 0 <= t <= 1 -> Rabs (q * t) <= Rabs q). { intros q t Ht. rewrite Rabs_mult, (Rabs_pos_eq t) by lra. rewrite <- (Rmult_1_r (Rabs q)) at 2. apply Rmult_le_compat_l; [apply Rabs_pos|lra]. }
    pose proof (Q (qa) X HX). pose proof (Q (qb) Y HY). pose proof (Q (qc) Z HZ). eapply Rle_trans; [apply Rabs_triang|]. apply Rplus_le_compat; [|assumption]. eapply Rle_trans; [apply Rabs_triang|]. lra.
Qed.

(* ---- images ---- *)
Definition codes (M : Z) (c : rgbu) : Prop := (0 <= rgb_r c <= M)%Z /\ (0 <= rgb_g c <= M)%Z /\ (0 <= rgb_b c <= M)%Z.
Definition close (w : Z) (c d : rgbu) : Prop := (Z.abs (rgb_r c - rgb_r d) <= w)%Z /\ (Z.abs (rgb_g c - rgb_g d) <= w)%Z /\ (Z.abs (rgb_b c - rgb_b d) <= w)%Z.
Definition same_image {K : XConst} (w M N : Z) (sf tf : color_space fl) (sx tx : color_space xr) : Prop := forall px to to' : list rgbu, Forall (codes M) px -> length to = length px -> length to' = length px ->
  exists out out', @rgb_to_rgb _ ops _ (@rgb_to_uint _ ops N) sf tf (map (@rgb_of_uint _ ops M) px) to = Ret (length px, out) /\ rgb_to_rgb (rgb_to_uint N) sx tx (map (rgb_of_uint M) px) to' = Ret (length px, out') /\ Forall2 (close w) out out'.
Lemma image_ok {K : XConst} w M N sf tf sx tx decf encf decx encx m q k e D : (exists E, acts sf decf E) -> (exists E, acts tf E encf) -> (exists E, acts sx decx E) -> (exists E, acts tx E encx) ->
  @rgb_to_rgb_matrix _ ops sf tf = Ret m -> rgb_to_rgb_matrix sx tx = Ret (FinM (toR (toQ q))) -> (0 <= k)%Z -> (0 <= e <= 100)%Z -> mat_fits k e D m q = true ->
  src_ok prec emax L lit M (IZR e * u) decf decx -> tgt_ok prec emax L lit N w (IZR D * u) encf encx -> same_image w M N sf tf sx tx.
Proof.
  intros (? & SF' & _) (? & _ & TF) (? & SX & _) (? & _ & TX) MF MX K0 E FT SRC TGT px to to' IN LE LE'.
  unfold rgb_to_rgb. rewrite MF, MX. cbn [obind].
  enough (G : exists out out', @rgb_to_rgb_loop _ ops _ (@rgb_to_uint _ ops N) sf tf m to (map (@rgb_of_uint _ ops M) px) = (length px, out) /\ rgb_to_rgb_loop (rgb_to_uint N) sx tx (FinM (toR (toQ q))) to' (map (rgb_of_uint M) px) = (length px, out') /\ Forall2 (close w) out out').
  { destruct G as (out & out' & G1 & G2 & G3). exists out, out'. rewrite G1, G2. repeat split; assumption. }
  revert to to' LE LE'. induction IN as [|[r g b] px (Hr & Hg & Hb) IN IH]; intros to to' LE LE'.
  - destruct to; [|discriminate]. destruct to'; [|discriminate]. exists [], []. repeat split. constructor.
  - destruct to as [|t to]; [discriminate|]. destruct to' as [|t' to']; [discriminate|]. cbn [length] in LE, LE'. destruct (IH to to' ltac:(lia) ltac:(lia)) as (out & out' & G1 & G2 & G3). cbn [map rgb_to_rgb_loop]. rewrite G1, G2. do 2 eexists. split; [reflexivity|]. split; [reflexivity|]. constructor; [|exact G3].
    unfold cs_encode, cs_decode, rgb_of_uint. rewrite SF', SX. unfold per_channel. cbn [rgb_r rgb_g rgb_b] in *.
    destruct (SRC r Hr) as (X & EX & BX & FX & NX). destruct (SRC g Hg) as (Y & EY & BY & FY & NY). destruct (SRC b Hb) as (Z & EZ & BZ & FZ & NZ). rewrite EX, EY, EZ.
    change (Rgb (Fin X) (Fin Y) (Fin Z)) with (FinRgb (X, Y, Z)). rewrite mat_mul_rgb_fin, TF, TX. destruct m as [m0 m1 m2 m3 m4 m5 m6 m7 m8]. destruct q as [[q0 q1 q2 q3 q4 q5 q6 q7 q8] n].
    unfold mat_fits in FT. rewrite !andb_true_iff in FT. destruct FT as [[T0 T1] T2].
    destruct (row_ok k e D n _ _ _ _ _ _ _ _ _ X Y Z K0 E T0 FX FY FZ BX BY BZ NX NY NZ) as (F0 & D0 & B0). destruct (row_ok k e D n _ _ _ _ _ _ _ _ _ X Y Z K0 E T1 FX FY FZ BX BY BZ NX NY NZ) as (F1 & D1 & B1). destruct (row_ok k e D n _ _ _ _ _ _ _ _ _ X Y Z K0 E T2 FX FY FZ BX BY BZ NX NY NZ) as (F2 & D2 & B2).
    repeat split; [exact (TGT _ _ F0 B0 D0)|exact (TGT _ _ F1 B1 D1)|exact (TGT _ _ F2 B2 D2)].
Qed.

(* ---- the curves ---- *)
Ltac weak H := eapply rel_weaken; [exact H| |]; lra.
Notation pw := (l_powf L).
Context (LO : lit_ok prec emax lit) (PW : powf_ok prec emax pw) (PZ : powf_zero prec emax pw) (PN : powf_neg prec emax pw) (PV : powf_wide prec emax pw).
Context (E6 : IZR (emax + prec) * u <= / 10000) (E7 : (2 * prec <= emax)%Z).
Definition decR (s o a g t : R) (X : R) : R := if Rle_dec X t then X / s else Rpower ((X + o) / a) g.
Definition encR (s o a g t : R) (y : R) : R := if Rle_dec y t then y * s else a * Rpower y (/ g) - o.
Definition decR' (s o a g t : R) (X : R) : R := if Rlt_dec X t then X / s else Rpower ((X + o) / a) g.
Definition encR' (s o a g t : R) (y : R) : R := if Rlt_dec y t then y * s else a * Rpower y (/ g) - o.
Lemma srgb_exact : near_exact prec emax (@dec_srgb_t _ ops) (@enc_srgb_t _ ops) (decR 12.92 0.055 1.055 2.4 (0.0031308 * 12.92)) (encR 12.92 0.055 1.055 2.4 0.0031308) (0.0031308 * 12.92) 3e-8.
Proof.
  destruct (CurveProofs.u24 prec P5) as [U0 U]. pose proof (tiny_le emax E5) as [T0 T].
  destruct (l_pos prec emax lit LO 12.92%Q 12.92 eq_refl ltac:(lra)) as [Fs Rs]. destruct (l_pos prec emax lit LO 0.055%Q 0.055 eq_refl ltac:(lra)) as [Fo Ro]. destruct (l_pos prec emax lit LO 1.055%Q 1.055 eq_refl ltac:(lra)) as [Fa Ra].
  destruct (l_pos prec emax lit LO 2.4%Q 2.4 eq_refl ltac:(lra)) as [Fg Rg]. destruct (l_pos prec emax lit LO 0.0031308%Q 0.0031308 eq_refl ltac:(lra)) as [F0 R0]. destruct (l_pos prec emax lit LO 0.040449936%Q 0.040449936 eq_refl ltac:(lra)) as [F1 R1].
  destruct (recip prec emax P5 E5 lit (lit 2.4%Q) 2.4 LO Fg Rg ltac:(lra)) as [Fp Rp]. pose proof (one_fin prec emax lit LO) as Fone. pose proof (proj2 LO) as Vone.
  pose proof (rel_bounds _ _ _ Ro) as Bo. assert (Ro' : Rabs (B2R (lit 0.055%Q) - 0.055) <= 1.3 * u) by (apply (lit_abs prec emax); [exact P5|exact LO|reflexivity|lra]).
  destruct (fplus prec emax P5 E5 (lit 1.0%Q) (lit 0.055%Q) Fone Fo ltac:(rewrite Vone; lra)) as [Fa2 Ra2].
  assert (Ra2' : rel (3 * u) (B2R (Bplus mode_NE (lit 1.0%Q) (lit 0.055%Q))) 1.055).
  { rewrite Vone in Ra2. assert (S : rel (1.5 * u) (1 + B2R (lit 0.055%Q)) 1.055) by (apply Rabs_le; lra). pose proof (rel_trans _ _ _ _ _ Ra2 S ltac:(lra) ltac:(lra) ltac:(lra)) as S2. weak S2. }
  assert (T1 : 0.0031308 * 12.92 = 0.040449936) by lra.
  apply (curve_exact prec emax P5 E5 pw PW 12.92 0.055 1.055 2.4 0.0031308 3e-8) with (fs := lit 12.92%Q) (fo1 := lit 0.055%Q) (fa1 := lit 1.055%Q) (fg := lit 2.4%Q) (fa2 := Bplus mode_NE (lit 1.0%Q) (lit 0.055%Q))
    (fp := Bdiv mode_NE (lit 1.0%Q) (lit 2.4%Q)) (fo2 := lit 0.055%Q) (ft0 := lit 0.0031308%Q) (ft1 := lit 0.040449936%Q); try assumption; try lra.
  1: exact knee_srgb.
  1: weak Rs. 1: weak Ra. 1: weak Rg. 1: weak R0. 1: rewrite T1; weak R1.
  - intros y Fy. unfold dec_srgb_t. cbn [rle rlit radd rdiv rpowf b_ops]. destruct (le_cases prec emax y (lit 0.040449936%Q) Fy F1) as [[-> C]|[-> C]]; [left|right]; (split; [exact C|reflexivity]).
  - intros y Fy. unfold enc_srgb_t. cbn [rle rlit rmul rsub radd rdiv rpowf b_ops]. destruct (le_cases prec emax y (lit 0.0031308%Q) Fy F0) as [[-> C]|[-> C]]; [left|right]; (split; [exact C|reflexivity]).
  - intro X. unfold decR. destruct (Rle_dec X (0.0031308 * 12.92)); [left|right]; (split; [lra|reflexivity]).
  - intro y. unfold encR. destruct (Rle_dec y 0.0031308); [left|right]; (split; [lra|reflexivity]).
Qed.
Lemma bt709_exact : near_exact prec emax (@dec_bt709_t _ ops) (@enc_bt709_t _ ops) (decR 4.5 0.099 1.099 (/ 0.45) (0.018 * 4.5)) (encR 4.5 0.099 1.099 (/ 0.45) 0.018) (0.018 * 4.5) 2.5e-4.
Proof.
  destruct (CurveProofs.u24 prec P5) as [U0 U]. pose proof (tiny_le emax E5) as [T0 T].
  destruct (l_pos prec emax lit LO 4.5%Q 4.5 eq_refl ltac:(lra)) as [Fs Rs]. destruct (l_pos prec emax lit LO 1.099%Q 1.099 eq_refl ltac:(lra)) as [Fa Ra]. destruct (l_pos prec emax lit LO 0.45%Q 0.45 eq_refl ltac:(lra)) as [Fp Rp]. destruct (l_pos prec emax lit LO 0.018%Q 0.018 eq_refl ltac:(lra)) as [F0 R0].
  destruct (l_pos prec emax lit LO 0.099%Q 0.099 eq_refl ltac:(lra)) as [Fo Ro]. assert (Ro' : Rabs (B2R (lit 0.099%Q) - 0.099) <= 1.3 * u) by (apply (lit_abs prec emax); [exact P5|exact LO|reflexivity|lra]).
  destruct (bt709_consts prec emax P5 E5 lit LO) as (fg & ft1 & fo & Eg & E1 & Eo & Fg & F1 & _ & Rg & R1 & _).
  apply (curve_exact prec emax P5 E5 pw PW 4.5 0.099 1.099 (/ 0.45) 0.018 2.5e-4) with (fs := lit 4.5%Q) (fo1 := lit 0.099%Q) (fa1 := lit 1.099%Q) (fg := fg) (fa2 := lit 1.099%Q)
    (fp := lit 0.45%Q) (fo2 := lit 0.099%Q) (ft0 := lit 0.018%Q) (ft1 := ft1); try assumption; try lra.
  1: exact knee_bt.
  1: weak Rs. 1: weak Ra. 1: weak Ra. 1: rewrite Rinv_inv; weak Rp. 1: weak R0.
  - intros y Fy. unfold dec_bt709_t. cbn [rle rlit radd rmul rdiv rpowf b_ops]. rewrite <- Eg, <- E1. destruct (le_cases prec emax y ft1 Fy F1) as [[-> C]|[-> C]]; [left|right]; (split; [exact C|reflexivity]).
  - intros y Fy. unfold enc_bt709_t. cbn [rle rlit rmul rsub radd rdiv rpowf b_ops]. destruct (le_cases prec emax y (lit 0.018%Q) Fy F0) as [[-> C]|[-> C]]; [left|right]; (split; [exact C|reflexivity]).
  - intro X. unfold decR. destruct (Rle_dec X (0.018 * 4.5)); [left|right]; (split; [lra|reflexivity]).
  - intro y. unfold encR. destruct (Rle_dec y 0.018); [left|right]; (split; [lra|reflexivity]).
Qed.
Lemma bt2020_exact : near_exact prec emax (@dec_bt2020_t _ ops) (@enc_bt2020_t _ ops) (decR' 4.5 0.099 1.099 (/ 0.45) (0.018 * 4.5)) (encR' 4.5 0.099 1.099 (/ 0.45) 0.018) (0.018 * 4.5) 2.5e-4.
Proof.
  destruct (CurveProofs.u24 prec P5) as [U0 U]. pose proof (tiny_le emax E5) as [T0 T].
  destruct (l_pos prec emax lit LO 4.5%Q 4.5 eq_refl ltac:(lra)) as [Fs Rs]. destruct (l_pos prec emax lit LO 1.099%Q 1.099 eq_refl ltac:(lra)) as [Fa Ra]. destruct (l_pos prec emax lit LO 0.45%Q 0.45 eq_refl ltac:(lra)) as [Fp Rp]. destruct (l_pos prec emax lit LO 0.018%Q 0.018 eq_refl ltac:(lra)) as [F0 R0].
  destruct (bt709_consts prec emax P5 E5 lit LO) as (fg & ft1 & fo & Eg & E1 & Eo & Fg & F1 & Fo & Rg & R1 & Ro).
  apply (curve_exact prec emax P5 E5 pw PW 4.5 0.099 1.099 (/ 0.45) 0.018 2.5e-4) with (fs := lit 4.5%Q) (fo1 := fo) (fa1 := lit 1.099%Q) (fg := fg) (fa2 := lit 1.099%Q)
    (fp := lit 0.45%Q) (fo2 := fo) (ft0 := lit 0.018%Q) (ft1 := ft1); try assumption; try lra.
  1: exact knee_bt.
  1: weak Rs. 1: weak Ra. 1: weak Ra. 1: rewrite Rinv_inv; weak Rp. 1: weak R0.
  - intros y Fy. unfold dec_bt2020_t. cbv zeta. cbn [rlt rlit radd rsub rmul rdiv rpowf b_ops]. rewrite <- Eg, <- E1, <- Eo. destruct (lt_cases prec emax y ft1 Fy F1) as [[-> C]|[-> C]]; [left|right]; (split; [exact C|reflexivity]).
  - intros y Fy. unfold enc_bt2020_t. cbv zeta. cbn [rlt rlit rmul rsub radd rdiv rpowf b_ops]. rewrite <- Eo. destruct (lt_cases prec emax y (lit 0.018%Q) Fy F0) as [[-> C]|[-> C]]; [left|right]; (split; [exact C|reflexivity]).
  - intro X. unfold decR'. destruct (Rlt_dec X (0.018 * 4.5)); [left|right]; (split; [lra|reflexivity]).
  - intro y. unfold encR'. destruct (Rlt_dec y 0.018); [left|right]; (split; [lra|reflexivity]).
Qed.
(* the exact curves are the model's, over the reals *)
Context {K : XConst} {KO : XConstOk K}.
Lemma srgb_x : (forall X, dec_srgb_t (Fin X) = Fin (decR 12.92 0.055 1.055 2.4 (0.0031308 * 12.92) X)) /\ (forall y, enc_srgb_t (Fin y) = Fin (encR 12.92 0.055 1.055 2.4 0.0031308 y)).
Proof.
  split; intro y; [unfold decR; destruct (Rle_dec y _); [rewrite dec_srgb_lin by lra; reflexivity|rewrite dec_srgb_pow by lra; replace (12 / 5) with 2.4 by lra; reflexivity]|].
  unfold encR. destruct (Rle_dec y _); [rewrite enc_srgb_lin by lra; apply (f_equal Fin); ring|rewrite enc_srgb_pow by lra; replace (5 / 12) with (/ 2.4) by lra; reflexivity].
Qed.
Lemma bt709_x : (forall X, dec_bt709_t (Fin X) = Fin (decR 4.5 0.099 1.099 (/ 0.45) (0.018 * 4.5) X)) /\ (forall y, enc_bt709_t (Fin y) = Fin (encR 4.5 0.099 1.099 (/ 0.45) 0.018 y)).
Proof.
  split; intro y; [unfold decR; destruct (Rle_dec y _); [rewrite dec_709_lin by lra; reflexivity|rewrite dec_709_pow by lra; replace (20 / 9) with (/ 0.45) by lra; reflexivity]|].
  unfold encR. rewrite Rinv_inv. destruct (Rle_dec y _); [rewrite enc_709_lin by lra; apply (f_equal Fin); ring|rewrite enc_709_pow by lra; replace (9 / 20) with 0.45 by lra; reflexivity].
Qed.
Lemma bt2020_x : (forall X, dec_bt2020_t (Fin X) = Fin (decR' 4.5 0.099 1.099 (/ 0.45) (0.018 * 4.5) X)) /\ (forall y, enc_bt2020_t (Fin y) = Fin (encR' 4.5 0.099 1.099 (/ 0.45) 0.018 y)).
Proof.
  split; intro y; [unfold decR'; destruct (Rlt_dec y _); [rewrite dec_2020_lin by lra; reflexivity|rewrite dec_2020_pow by lra; replace (20 / 9) with (/ 0.45) by lra; reflexivity]|].
  unfold encR'. rewrite Rinv_inv. destruct (Rlt_dec y _); [rewrite enc_2020_lin by lra; apply (f_equal Fin); ring|rewrite enc_2020_pow by lra; replace (9 / 20) with 0.45 by lra; reflexivity].
Qed.

(* ---- sources and targets ---- *)
Notation litd := (b_of_Q prec emax).
Lemma powx g x : Q2R g <> 0 -> @kenc _ xr_ops (KPow g) x = rootx (/ Q2R g) x /\ @kdec _ xr_ops (KPow g) x = rootx (Q2R g) x.
Proof.
  intro G. cbn [kenc kdec rpowf rdiv rlitd xr_ops xdiv]. destruct (Req_EM_T (Q2R g) 0) as [E|_]; [contradiction|]. split; [|reflexivity]. unfold rootx. f_equal. apply (f_equal Fin). replace (Q2R 1.0) with 1 by (clear; q2r; lra). unfold Rdiv. apply Rmult_1_l.
Qed.
Lemma kinds_pow g : In (KPow g) kinds -> 2 <= Q2R g <= 2.7.
Proof. intro I. unfold kinds in I. cbn [In] in I. repeat (destruct I as [I|I]; [try discriminate; injection I as <-; clear; q2r; lra|]). contradiction. Qed.
Lemma depth_range M : In M depths -> (1 <= M <= 65535)%Z.
Proof. intro I. unfold depths in I. cbn in I. repeat (destruct I as [<-|I]; [lia|]). contradiction. Qed.
Lemma src_ext M e decf decx decx' : (forall x, decx x = decx' x) -> src_ok prec emax L lit M e decf decx' -> src_ok prec emax L lit M e decf decx.
Proof. intros H S k Hk. rewrite H. exact (S k Hk). Qed.
Lemma tgt_ext N w D encf encx encx' : (forall x, encx x = encx' x) -> tgt_ok prec emax L lit N w D encf encx' -> tgt_ok prec emax L lit N w D encf encx.
Proof. intros H S v y F Y E. rewrite H. exact (S v y F Y E). Qed.
Lemma src_kind k M : In k kinds -> In M depths -> src_ok prec emax L lit M (IZR (kerr k) * u) (@kdec _ ops k) (kdec k).
Proof.
  intros I HM. pose proof (depth_range M HM) as RM. pose proof (tiny_le emax E5) as [T0 T]. destruct (CurveProofs.u24 prec P5) as [U0 U].
  destruct k as [| | |g|]; cbn [kerr kdec].
  - apply (src_curve prec emax P5 L lit M _ _ _ _ _ _ _ 40449936 1000000000 srgb_exact (proj1 srgb_x) RM HM); [lra|lia|vm_compute; reflexivity].
  - apply (src_curve prec emax P5 L lit M _ _ _ _ _ _ _ 81 1000 bt709_exact (proj1 bt709_x) RM HM); [lra|lia|vm_compute; reflexivity].
  - apply (src_curve prec emax P5 L lit M _ _ _ _ _ _ _ 81 1000 bt2020_exact (proj1 bt2020_x) RM HM); [lra|lia|vm_compute; reflexivity].
  - pose proof (kinds_pow g I) as G. destruct (litd_ok prec emax P5 E5) as [LD _]. destruct (LD g ltac:(lra)) as [Fg Rg].
    apply (src_ext M _ _ _ (rootx (Q2R g))); [intro x; apply (powx g x); lra|]. apply (src_power prec emax P5 E5 L lit PW PZ M (Q2R g) (litd g) RM G Fg). eapply rel_weaken; [exact Rg| |]; lra.
  - apply (src_linear prec emax P5 L lit M RM).
Qed.
Lemma grow_N N M E w : (1 <= N <= M)%Z -> 0 <= E -> IZR M * E < IZR w -> IZR N * E < IZR w.
Proof. intros H E0 B. eapply Rle_lt_trans; [|exact B]. apply Rmult_le_compat_r; [exact E0|apply IZR_le; lia]. Qed.
Lemma tgt_kpow g N M w D B : (1 <= N <= M)%Z -> (M <= 65535)%Z -> In (KPow g) kinds -> 0 < D <= 0.001 -> Rpower D (/ Q2R g) <= B -> IZR M * (B + 1.1 * slack prec emax + u) < IZR w -> tgt_ok prec emax L lit N w D (@kenc _ ops (KPow g)) (kenc (KPow g)).
Proof.
  intros HN HM I HD HB H. destruct (CurveProofs.u24 prec P5) as [U0 U]. pose proof (tiny_le emax E5) as [T0 T]. pose proof (kinds_pow g I) as G. destruct (litd_ok prec emax P5 E5) as [LD _]. destruct (LD g ltac:(lra)) as [Fg Rg].
  destruct (recip prec emax P5 E5 litd _ _ (litd_ok prec emax P5 E5) Fg Rg ltac:(lra)) as [Fp Rp].
  assert (SL : 0 <= slack prec emax). { unfold slack. assert (0 <= IZR (emax + prec) * u) by (apply Rmult_le_pos; [apply IZR_le; lia|lra]). lra. } assert (R0 : 0 < Rpower D (/ Q2R g)) by apply exp_pos. assert (M1 : 0 < IZR M) by (apply IZR_lt; lia).
  apply (tgt_ext N w D _ _ (rootx (/ Q2R g))); [intro x; apply (powx g x); lra|]. apply (tgt_power prec emax P5 E5 L lit PW PZ PN PV E6 E7 N w D (Q2R g) _ ltac:(lia) G Fp Rp HD).
  apply (grow_N N M); [exact HN|lra|]. eapply Rle_lt_trans; [|exact H]. apply Rmult_le_compat_l; lra.
Qed.
Definition knee_jump (k : kind) : R := match k with KSrgb => 3e-8 | _ => 2.5e-4 end.
Lemma tgt_kcurve k N M w D : match k with KPow _ | KLin => False | _ => True end -> (1 <= N <= M)%Z -> (M <= 65535)%Z -> 0 <= D <= 0.001 -> IZR M * (13 * D + knee_jump k + 33 * u + u) < IZR w -> tgt_ok prec emax L lit N w D (@kenc _ ops k) (kenc k).
Proof.
  intros HK HN HM HD B. destruct (CurveProofs.u24 prec P5) as [U0 U].
  destruct k as [| | |g|]; cbn [knee_jump] in B; [| | |contradiction|contradiction].
  - apply (tgt_curve prec emax P5 L lit N w D _ _ _ _ _ _ _ srgb_exact (proj2 srgb_x)); try lra; [lia|]. apply (grow_N N M _ w HN); [lra|exact B].
  - apply (tgt_curve prec emax P5 L lit N w D _ _ _ _ _ _ _ bt709_exact (proj2 bt709_x)); try lra; [lia|]. apply (grow_N N M _ w HN); [lra|exact B].
  - apply (tgt_curve prec emax P5 L lit N w D _ _ _ _ _ _ _ bt2020_exact (proj2 bt2020_x)); try lra; [lia|]. apply (grow_N N M _ w HN); [lra|exact B].
Qed.
Lemma tgt_klin N M w D : (1 <= N <= M)%Z -> (M <= 65535)%Z -> 0 <= D -> IZR M * (D + u) < IZR w -> tgt_ok prec emax L lit N w D (@kenc _ ops KLin) (kenc KLin).
Proof. intros HN HM HD B. destruct (CurveProofs.u24 prec P5) as [U0 U]. apply (tgt_linear prec emax P5 L lit N w D ltac:(lia)). apply (grow_N N M _ w HN); [lra|exact B]. Qed.

(* ---- all pairs ---- *)
Definition errs : list Z := [95; 95; 95; 95; 80; 80; 50; 50; 55]%Z.   (* units u before encoding *)
Definition fit_check : bool :=
  let l := combine (seq 0 9) (@spaces _ ops) in
  forallb (fun a => forallb (fun b => match snd (fst a), snd (fst b) with
    | Ret s, Ret t => match @rgb_to_rgb_matrix _ ops s t with Ret m => mat_fits 200 (kerr (snd a)) (snd b) m (ipair (fst (fst a)) (fst (fst b))) | _ => false end
    | _, _ => false end) (combine l errs)) (combine l kinds).
Lemma nth_combine {A B} (l : list A) (l' : list B) i a b : nth_error l i = Some a -> nth_error l' i = Some b -> nth_error (combine l l') i = Some (a, b).
Proof. revert l' i. induction l as [|x l IH]; intros [|y l'] [|i]; cbn; try discriminate. - intros [= ->] [= ->]. reflexivity. - apply IH. Qed.
Lemma some_at {A} (l : list A) i : (i < length l)%nat -> exists a, nth_error l i = Some a.
Proof. intro H. destruct (nth_error l i) as [a|] eqn:E; [exists a; reflexivity|]. apply nth_error_None in E. lia. Qed.
Lemma seq_at i : (i < 9)%nat -> nth_error (seq 0 9) i = Some i.
Proof. intro H. destruct i as [|[|[|[|[|[|[|[|[|i]]]]]]]]]; try reflexivity. lia. Qed.
Definition depth (m : Z) : Z := (2 ^ m - 1)%Z.
Lemma depth_in m : (1 <= m <= 16)%Z -> In (depth m) depths.
Proof. intro H. unfold depths, depth. apply in_map_iff. exists (Z.to_nat m). rewrite Z2Nat.id by lia. split; [reflexivity|]. apply in_seq. lia. Qed.
Definition agree (limits : list (list (Z * Z))) : Prop := forall i j, (i < 9)%nat -> (j < 9)%nat -> exists sf tf sx tx,
  nth_error (@spaces _ ops) i = Some (Ret sf) /\ nth_error (@spaces _ ops) j = Some (Ret tf) /\ nth_error (@spaces _ xr_ops) i = Some (Ret sx) /\ nth_error (@spaces _ xr_ops) j = Some (Ret tx) /\
  forall m n d w, (1 <= m <= 16)%Z -> In (d, w) (nth j limits []) -> (1 <= n <= d)%Z -> same_image w (depth m) (depth n) sf tf sx tx.
Theorem all_agree limits : fit_check = true ->
  (forall j k D, nth_error kinds j = Some k -> nth_error errs j = Some D -> forall d w n, In (d, w) (nth j limits []) -> (1 <= n <= d)%Z -> tgt_ok prec emax L lit (depth n) w (IZR D * u) (@kenc _ ops k) (kenc k)) -> agree limits.
Proof.
  intros FC TG i j Hi Hj.
  destruct (some_at (@spaces _ ops) i Hi) as [osf Asf]. destruct (some_at (@spaces _ ops) j Hj) as [otf Atf]. destruct (some_at (@spaces _ xr_ops) i Hi) as [osx Asx]. destruct (some_at (@spaces _ xr_ops) j Hj) as [otx Atx].
  destruct (some_at qspaces i Hi) as [qa Aqa]. destruct (some_at qspaces j Hj) as [qb Aqb]. destruct (some_at kinds i Hi) as [ka Aka]. destruct (some_at kinds j Hj) as [kb Akb]. destruct (some_at errs j Hj) as [D AD].
  destruct (nth_Forall2 _ _ _ _ _ _ all_described Aqa Asx) as (sx & -> & Dx). destruct (nth_Forall2 _ _ _ _ _ _ all_described Aqb Atx) as (tx & -> & Dt).
  unfold fit_check in FC. cbv zeta in FC. rewrite forallb_forall in FC. specialize (FC _ (nth_error_In _ _ (nth_combine _ _ _ _ _ (nth_combine _ _ _ _ _ (seq_at i Hi) Asf) Aka))). rewrite forallb_forall in FC. specialize (FC _ (nth_error_In _ _ (nth_combine _ _ _ _ _ (nth_combine _ _ _ _ _ (seq_at j Hj) Atf) AD))).
  cbn [fst snd] in FC. destruct osf as [sf| |]; try discriminate. destruct otf as [tf| |]; try discriminate. destruct (@rgb_to_rgb_matrix _ ops sf tf) as [m| |] eqn:EM; try discriminate.
  exists sf, tf, sx, tx. repeat (split; [assumption|]). intros mm n d w Hm Hd Hn.
  assert (FW : forall x, In x qspaces -> fit_white (q_white x) = true) by (apply Forall_forall; exact all_fit).
  pose proof (pair_exact qa qb sx tx Dx Dt (FW _ (nth_error_In _ _ Aqa)) (FW _ (nth_error_In _ _ Aqb))) as EX. rewrite <- (ipair_ok i j qa qb Aqa Aqb) in EX.
  refine (image_ok w (depth mm) (depth n) sf tf sx tx (@kdec _ ops ka) (@kenc _ ops kb) (kdec ka) (kenc kb) m (ipair i j) 200 (kerr ka) D _ _ _ _ EM EX ltac:(lia) _ FC _ _).
  - eexists. exact (nth_Forall2 _ _ _ _ _ _ all_act Aka Asf _ eq_refl).
  - eexists. exact (nth_Forall2 _ _ _ _ _ _ all_act Akb Atf _ eq_refl).
  - eexists. exact (nth_Forall2 _ _ _ _ _ _ all_act Aka Asx _ eq_refl).
  - eexists. exact (nth_Forall2 _ _ _ _ _ _ all_act Akb Atx _ eq_refl).
  - destruct ka; cbn [kerr]; lia.
  - apply src_kind; [exact (nth_error_In _ _ Aka)|apply depth_in, Hm].
  - exact (TG j kb D Akb AD d w n Hd Hn).
Qed.
End Fmt.

(* ---- the two formats ---- *)
(* per target, (bits, codes): up to that many bits per channel the two outputs are at most that many codes apart *)
Definition limits32 : list (list (Z * Z)) := [[(13, 1); (16, 5)]; [(13, 1); (16, 5)]; [(11, 1); (16, 22)]; [(11, 1); (16, 22)]; [(8, 3); (16, 740)]; [(8, 3); (16, 740)]; [(16, 1)]; [(16, 1)]; [(8, 1); (16, 250)]]%Z.
Definition limits64 : list (list (Z * Z)) := [[(16, 1)]; [(16, 1)]; [(11, 1); (16, 17)]; [(11, 1); (16, 17)]; [(16, 1)]; [(16, 1)]; [(16, 1)]; [(16, 1)]; [(16, 1)]]%Z.
Lemma down_power x a b : 0 < x <= 1 -> a <= b -> Rpower x b <= Rpower x a.
Proof.
  intros H AB. unfold Rpower. assert (LN : ln x <= 0). { rewrite <- ln_1. destruct (Rle_lt_or_eq_dec x 1 (proj2 H)) as [D|D]; [left; apply ln_increasing; lra|rewrite D; right; reflexivity]. }
  assert (M : b * ln x <= a * ln x) by (apply (Rmult_le_compat_neg_l (ln x)) in AB; lra). destruct (Rle_lt_or_eq_dec _ _ M) as [D|D]; [left; apply exp_increasing, D|right; f_equal; exact D].
Qed.
Lemma two_power x n m a : 0 < x <= bpow radix2 (- n) -> 0 < a -> IZR m <= IZR n * a -> Rpower x a <= bpow radix2 (- m).
Proof.
  intros H A M. apply Rle_trans with (Rpower (bpow radix2 (- n)) a); [apply Rle_Rpower_l; lra|]. rewrite !bpow_powerRZ, !powerRZ_Rpower by (cbn; lra). rewrite Rpower_mult. apply Rle_Rpower; [cbn; lra|]. rewrite !opp_IZR. lra.
Qed.
Lemma depth_le n d : (1 <= n <= d)%Z -> (1 <= depth n <= depth d)%Z.
Proof. intro H. unfold depth. pose proof (Z.pow_le_mono_r 2 1 n ltac:(lia) ltac:(lia)). pose proof (Z.pow_le_mono_r 2 n d ltac:(lia) ltac:(lia)). change (2 ^ 1)%Z with 2%Z in *. lia. Qed.
Lemma fit32 (L : libm f32) : fit_check 24 128 L (fun q => f64_to_f32 (b_of_Q 53 1024 q)) = true.
Proof. vm_compute. reflexivity. Qed.
Lemma fit64 (L : libm f64) : fit_check 53 1024 L (b_of_Q 53 1024) = true.
Proof. vm_compute. reflexivity. Qed.
Lemma p3_32 : Rpower (80 * / 16777216) (/ 2.6) <= 23 / 2048.
Proof. replace (/ 2.6) with (5 / 13) by lra. left. apply (gt_frac_power _ _ 5 13); [lra|lra|cbn; lra|lia|lra]. Qed.
Lemma adobe_32 : Rpower (55 * / 16777216) (/ 2.19921875) <= 31 / 8192.
Proof. apply Rle_trans with (Rpower (55 * / 16777216) (5 / 11)); [apply down_power; lra|]. left. apply (gt_frac_power _ _ 5 11); [lra|lra|cbn; lra|lia|lra]. Qed.
Theorem C95_float_image_f32 {K : XConst} {KO : XConstOk K} (L : libm f32) : good_powf 24 128 (l_powf L) -> powf_wide 24 128 (l_powf L) -> agree 24 128 L (fun q => f64_to_f32 (b_of_Q 53 1024 q)) limits32.
Proof.
  intros (PW & PZ & PN) PV. assert (E6 : IZR (128 + 24) * bpow radix2 (- (24)) <= / 10000) by (change (bpow radix2 (- (24))) with (/ 16777216); change (IZR (128 + 24)) with 152; lra).
  apply (all_agree 24 128 ltac:(lia) ltac:(lia) L _ lit32_ok PW PZ PV limits32 (fit32 L)).
  intros j k D HK HD d w n I Hn. pose proof (depth_le n d Hn) as DN.
  destruct j as [|[|[|[|[|[|[|[|[|j]]]]]]]]]; cbn [nth_error kinds errs nth limits32] in *; [..|destruct j; discriminate]; injection HK as <-; injection HD as <-; cbn [In] in I;
  repeat (destruct I as [I|I]; [injection I as <- <-|]); try contradiction.
  all: match goal with
    | |- tgt_ok _ _ _ _ _ _ _ (kenc KLin) _ => eapply (tgt_klin 24 128 ltac:(lia) L _ _ _ _ _ DN)
    | |- tgt_ok _ _ _ _ _ _ _ (kenc (KPow 2.6)) _ => eapply (tgt_kpow 24 128 ltac:(lia) ltac:(lia) L _ PW PZ PN PV E6 ltac:(lia) _ _ _ _ _ (23 / 2048) DN)
    | |- tgt_ok _ _ _ _ _ _ _ (kenc (KPow _)) _ => eapply (tgt_kpow 24 128 ltac:(lia) ltac:(lia) L _ PW PZ PN PV E6 ltac:(lia) _ _ _ _ _ (31 / 8192) DN)
    | |- tgt_ok _ _ _ _ _ _ _ (kenc ?k) _ => eapply (tgt_kcurve 24 128 ltac:(lia) ltac:(lia) L _ lit32_ok PW PV k _ _ _ _ Logic.I DN) end.
  all: cbn [knee_jump]; unfold slack; change (bpow radix2 (- (24))) with (/ 16777216); change (IZR (128 + 24)) with 152; change (depth 16) with 65535%Z; change (depth 13) with 8191%Z; change (depth 11) with 2047%Z; change (depth 8) with 255%Z; try lia; try lra.
  all: match goal with |- In _ _ => cbn; tauto | |- Rpower _ (/ Q2R 2.6) <= _ => exact p3_32 | |- Rpower _ _ <= _ => exact adobe_32 end.
Qed.
Lemma p3_64 : Rpower (80 * / 9007199254740992) (/ 2.6) <= / 131072.
Proof. change (/ 131072) with (bpow radix2 (- (17))). apply (two_power _ 46); [change (bpow radix2 (- (46))) with (/ 70368744177664); lra|lra|lra]. Qed.
Lemma adobe_64 : Rpower (55 * / 9007199254740992) (/ 2.19921875) <= / 131072.
Proof. change (/ 131072) with (bpow radix2 (- (17))). apply (two_power _ 47); [change (bpow radix2 (- (47))) with (/ 140737488355328); lra|lra|lra]. Qed.
Theorem C95_float_image_f64 {K : XConst} {KO : XConstOk K} (L : libm f64) : good_powf 53 1024 (l_powf L) -> powf_wide 53 1024 (l_powf L) -> agree 53 1024 L (b_of_Q 53 1024) limits64.
Proof.
  intros (PW & PZ & PN) PV. assert (E6 : IZR (1024 + 53) * bpow radix2 (- (53)) <= / 10000) by (change (bpow radix2 (- (53))) with (/ 9007199254740992); change (IZR (1024 + 53)) with 1077; lra).
  pose proof (litd_ok 53 1024 ltac:(lia) ltac:(lia)) as LO. apply (all_agree 53 1024 ltac:(lia) ltac:(lia) L _ LO PW PZ PV limits64 (fit64 L)).
  intros j k D HK HD d w n I Hn. pose proof (depth_le n d Hn) as DN.
  destruct j as [|[|[|[|[|[|[|[|[|j]]]]]]]]]; cbn [nth_error kinds errs nth limits64] in *; [..|destruct j; discriminate]; injection HK as <-; injection HD as <-; cbn [In] in I;
  repeat (destruct I as [I|I]; [injection I as <- <-|]); try contradiction.
  all: match goal with
    | |- tgt_ok _ _ _ _ _ _ _ (kenc KLin) _ => eapply (tgt_klin 53 1024 ltac:(lia) L _ _ _ _ _ DN)
    | |- tgt_ok _ _ _ _ _ _ _ (kenc (KPow _)) _ => eapply (tgt_kpow 53 1024 ltac:(lia) ltac:(lia) L _ PW PZ PN PV E6 ltac:(lia) _ _ _ _ _ (/ 131072) DN)
    | |- tgt_ok _ _ _ _ _ _ _ (kenc ?k) _ => eapply (tgt_kcurve 53 1024 ltac:(lia) ltac:(lia) L _ LO PW PV k _ _ _ _ Logic.I DN) end.
  all: cbn [knee_jump]; unfold slack; change (bpow radix2 (- (53))) with (/ 9007199254740992); change (IZR (1024 + 53)) with 1077; change (depth 16) with 65535%Z; change (depth 11) with 2047%Z; try lia; try lra.
  all: match goal with |- In _ _ => cbn; tauto | |- Rpower _ (/ Q2R 2.6) <= _ => exact p3_64 | |- Rpower _ _ <= _ => exact adobe_64 end.
Qed.
(* a powf as assumed exists *)
Lemma full_wide (p e : Z) {Hp : Prec_gt_0 p} {He : Prec_lt_emax p e} : (24 <= p)%Z -> (128 <= e)%Z -> powf_wide p e (full_pow p e).
Proof.
  intros P5 E5 x y Fx Fy X Y. unfold full_pow, rounded_pow. rewrite Rlt_bool_false, Rlt_bool_true by lra.
  assert (B : 1 <= Rpower (B2R x) (B2R y) <= 16).
  { split; [rewrite <- (Rpower_O (B2R x)) at 1 by lra; destruct (Rle_lt_or_eq_dec 1 (B2R x) (proj1 X)) as [D|D]; [apply Rle_Rpower; lra|rewrite <- D; unfold Rpower; rewrite ln_1, !Rmult_0_r; right; reflexivity]|].
    apply Rle_trans with (Rpower 16 (B2R y)); [apply Rle_Rpower_l; lra|]. rewrite <- (Rpower_1 16) at 2 by lra. apply Rle_Rpower; lra. }
  pose proof (tiny_le e E5) as [T0 T].
  destruct (nearest_ok p e (Rpower (B2R x) (B2R y))) as [F V]; [apply (rnd_below p e P5 E5); lra|]. split; [exact F|]. rewrite V. pose proof (CurveProofs.u24 p P5).
  eapply rel_weaken; [apply (rnd_rel p e); lra|lra|lra].
Qed.
(* at ten bits f32 is further off than one code for P3, even from P3 to itself *)
Theorem C95_deep_p3_refuted : exists m : Z, (1 <= m <= 10)%Z /\ forall (K : XConst) (KO : XConstOk K) (L : libm f32), good_powf 24 128 (l_powf L) -> exists sf sx, @DCI_P3 _ (f32_ops L) = Ret sf /\ DCI_P3 = Ret sx /\
  ~ same_image 24 128 L (fun q => f64_to_f32 (b_of_Q 53 1024 q)) 1 (2 ^ m - 1) (2 ^ m - 1) sf sf sx sx.
Proof.
  exists 10%Z. split; [lia|]. change (2 ^ 10 - 1)%Z with 1023%Z. intros K KO L (PW & PZ & PN). assert (G : Q2R 2.6 = 2.6) by reflexivity.
  destruct (leak 24 128 ltac:(lia) ltac:(lia) L (fun q => f64_to_f32 (b_of_Q 53 1024 q)) PW PZ (@DCI_P3 _ (f32_ops L)) 2.6 1023 2 72000 73000 (7 / 18) (3 / 8) 0.0016 0.0022) as (sf & c & E & H & R1); rewrite ?G; try lra; try lia.
  { intros s E. apply (new_oetf 24 128 L _ _ _ _ _ _ _ _ E). }
  { vm_compute. reflexivity. }
  { split; [lra|]. apply (lt_frac_power _ _ 7 18); [lra|lra|cbn; lra|lia|lra]. }
  { apply (gt_frac_power _ _ 3 8); [lra|lra|cbn; lra|lia|lra]. }
  destruct (nth_Forall2 _ _ _ 4 _ _ all_described eq_refl eq_refl) as (sx & EX & DX). exists sf, sx. split; [exact E|]. split; [exact EX|]. intro SI.
  destruct (SI [Rgb 0 1023 1023]%Z [Rgb 0 0 0]%Z [Rgb 0 0 0]%Z) as (out & out' & H1 & H2 & H3); [repeat constructor; cbn; lia|reflexivity|reflexivity|].
  cbn [map length] in H1. rewrite H in H1. injection H1 as <-. inversion H3 as [|x d l l' [CR _] F3 E1 E2]. inversion F3. subst. cbn [length map] in H2.
  assert (FW : fit_white (0.314, 0.351)%Q = true) by reflexivity. pose proof (pair_exact _ _ sx sx DX DX FW FW) as PE.
  unfold rgb_to_rgb in H2. rewrite PE in H2. cbn [obind rgb_to_rgb_loop] in H2.
  match type of H2 with context [qpair ?a ?b] => assert (ID : qpair a b = (Mat33 1 0 0 0 1 0 0 0 1)%Q) by (vm_compute; reflexivity) end. rewrite ID in H2. clear ID PE.
  destruct (nth_Forall2 _ _ _ 4 _ _ all_act eq_refl eq_refl sx EX) as [AD AE]. assert (G6 : Q2R 2.6 <> 0) by (clear; q2r; lra).
  unfold cs_encode, cs_decode in H2. rewrite AD, AE in H2. unfold per_channel, rgb_of_uint, rgb_to_uint in H2. cbn [rgb_r rgb_g rgb_b] in H2. rewrite !(proj2 (powx _ _ G6)), !xdeq in H2 by lia.
  assert (Z0 : IZR 0 / IZR 1023 = 0) by lra. assert (Z1 : IZR 1023 / IZR 1023 = 1) by lra. rewrite Z0, Z1, rootx_zero, !rootx_pos in H2 by lra.
  change (Rgb (Fin 0) (Fin (Rpower 1 (Q2R 2.6))) (Fin (Rpower 1 (Q2R 2.6)))) with (FinRgb (0, Rpower 1 (Q2R 2.6), Rpower 1 (Q2R 2.6))) in H2. rewrite mat_mul_rgb_fin in H2. cbn [mapp toR FinRgb rgb_r rgb_g rgb_b] in H2.
  rewrite (proj1 (powx _ _ G6)), q2r_0, q2r_1 in H2.
  apply (f_equal (fun o => match o with Ret (_, x :: _) => rgb_r x | _ => 0%Z end)) in H2. cbv beta iota in H2. cbn [rgb_r] in H2. rewrite (nonpos_x 1023 (/ Q2R 2.6)) in H2; [lia|lia|lra|lra].
Qed.
(* three eight-bit P3 pixels, one out of range for ACEScg, written as sixteen bits: no channel is more than one code away from the exact conversion *)
Example C95_example : exists L : libm f32, good_powf 24 128 (l_powf L) /\ powf_wide 24 128 (l_powf L) /\ exists (s t : color_space f32) (s' t' : color_space xr),
  @DCI_P3 _ (f32_ops L) = Ret s /\ @ACES_CG _ (f32_ops L) = Ret t /\ @DCI_P3 _ (@xr_ops f32_const) = Ret s' /\ @ACES_CG _ (@xr_ops f32_const) = Ret t' /\
  let px := [Rgb 0 255 0; Rgb 1 2 3; Rgb 255 254 128]%Z in exists c0 c1 c2 d0 d1 d2,
    @rgb_to_rgb _ (f32_ops L) _ (@rgb_to_u16 _ (f32_ops L)) s t (map (@rgb_of_u8 _ (f32_ops L)) px) px = Ret (3%nat, [c0; c1; c2]) /\
    @rgb_to_rgb _ (@xr_ops f32_const) _ (@rgb_to_u16 _ (@xr_ops f32_const)) s' t' (map (@rgb_of_u8 _ (@xr_ops f32_const)) px) px = Ret (3%nat, [d0; d1; d2]) /\ close 1 c0 d0 /\ close 1 c1 d1 /\ close 1 c2 d2.
Proof.
  set (L := some_libm (B754_zero false : f32) (full_pow 24 128)). pose proof (full_pow_ok 24 128 ltac:(lia) ltac:(lia) : good_powf 24 128 (l_powf L)) as PW. pose proof (full_wide 24 128 ltac:(lia) ltac:(lia) : powf_wide 24 128 (l_powf L)) as PV.
  exists L. split; [exact PW|]. split; [exact PV|]. destruct (@C95_float_image_f32 f32_const f32_const_ok L PW PV 4%nat 7%nat ltac:(lia) ltac:(lia)) as (s & t & s' & t' & A & B & A' & B' & H). exists s, t, s', t'.
  assert (SO : forall (T : Type) (x y : T), Some x = Some y -> x = y) by (intros T x y [= E]; exact E). split; [exact (SO _ _ _ A)|]. split; [exact (SO _ _ _ B)|]. split; [exact (SO _ _ _ A')|]. split; [exact (SO _ _ _ B')|]. intro px.
  destruct (H 8%Z 16%Z 16%Z 1%Z ltac:(lia) (or_introl eq_refl) ltac:(lia) px px px) as (out & out' & H1 & H2 & H3); [unfold px; repeat constructor; cbn; lia|reflexivity|reflexivity|].
  assert (LO : length out = 3%nat).
  { unfold rgb_to_rgb in H1. destruct (@rgb_to_rgb_matrix _ _ s t) as [m| |]; try discriminate H1. cbn [obind map rgb_to_rgb_loop px] in H1. injection H1 as <-. reflexivity. }
  destruct out as [|c0 [|c1 [|c2 [|]]]]; try discriminate LO.
  inversion H3 as [|? d0 ? k0 X0 F0 E0 E1]. inversion F0 as [|? d1 ? k1 X1 F1 E2 E3]. inversion F1 as [|? d2 ? k2 X2 F2 E4 E5]. inversion F2. subst. exists c0, c1, c2, d0, d1, d2. split; [exact H1|]. split; [exact H2|]. split; [exact X0|]. split; [exact X1|exact X2].
Qed.
Print Assumptions C95_float_image_f32.
Print Assumptions C95_float_image_f64.
Print Assumptions C95_deep_p3_refuted.
