(* C108: images read from ALEXA wide gamut, in floating point against exact arithmetic *)
From Coq Require Import Reals ZArith QArith Qreals Lra Lia Bool List.
From Flocq Require Import Core BinarySingleNaN.
From Verif Require Import Outcome RealOps MathModel ColorModel SpaceModel TransformModel XReal SpecLin FloatInst FloatProofs ErrProofs TransferProofs PropPixel RelErr CurveProofs PropCurve PropSelf MatProofs ConvMat ConvProofs PropConv PropRef LogProofs PropLogc.
Import ListNotations.
Open Scope R_scope.

(* the exact matrices from ALEXA wide gamut to the nine spaces *)
Definition from_alexa_i : list imat := Eval vm_compute in map (fun q => over_common (qpair qalexa q)) qspaces.
Lemma from_alexa_same : Forall2 (fun i q => same_mat i (qpair qalexa q) = true) from_alexa_i qspaces.
Proof. unfold from_alexa_i, qspaces. repeat apply Forall2_cons; [..|apply Forall2_nil]; vm_compute; reflexivity. Qed.

Section Fmt.
Context (prec emax : Z) {Hp : Prec_gt_0 prec} {He : Prec_lt_emax prec emax}.
Notation fl := (binary_float prec emax).
Notation u := (bpow radix2 (- prec)).
Notation eta := (bpow radix2 (2 - emax - prec)).
Notation rnd := (round radix2 (SpecFloat.fexp prec emax) ZnearestE).
Context (P5 : (24 <= prec)%Z) (E5 : (128 <= emax)%Z).
Context (L : libm fl) (lit : Q -> fl).
Notation ops := (b_ops prec emax L lit).
Notation alexa := (@ALEXA_WIDE_GAMUT _ ops).

(* powf within 4 half-units in the last place on [1, 400] to powers up to 1 *)
Definition powf_far (pw : fl -> fl -> fl) : Prop := forall x y, is_finite x = true -> is_finite y = true -> 1 <= B2R x <= 400 -> 0 <= B2R y <= 1 -> is_finite (pw x y) = true /\ rel (4 * u) (B2R (pw x y)) (Rpower (B2R x) (B2R y)).
Lemma far_wide pw : powf_far pw -> powf_wide prec emax pw.
Proof. intros H x y Fx Fy X Y. apply H; try assumption. lra. Qed.
(* the same image, for pixels whose codes of depth M are at most T *)
Definition part_image {K : XConst} (w T M N : Z) (sf tf : color_space fl) (sx tx : color_space xr) : Prop := forall px to to' : list rgbu, Forall (codes T) px -> length to = length px -> length to' = length px ->
  exists out out', @rgb_to_rgb _ ops _ (@rgb_to_uint _ ops N) sf tf (map (@rgb_of_uint _ ops M) px) to = Ret (length px, out) /\ rgb_to_rgb (rgb_to_uint N) sx tx (map (rgb_of_uint M) px) to' = Ret (length px, out') /\ Forall2 (close w) out out'.
(* an image of m bits per channel in ALEXA wide gamut, with no code above top (2^m - 1), written with n bits per channel in each of the nine spaces *)
Definition agree_from {K : XConst} (top : Z -> Z) (limits : list (list (Z * Z))) : Prop := forall j, (j < 9)%nat -> exists tf tx,
  nth_error (@spaces _ ops) j = Some (Ret tf) /\ nth_error (@spaces _ xr_ops) j = Some (Ret tx) /\
  forall m n d w, (1 <= m <= 16)%Z -> In (d, w) (nth j limits []) -> (1 <= n <= d)%Z -> part_image w (top (depth m)) (depth m) (depth n) alexa tf ALEXA_WIDE_GAMUT tx.

(* ---- the matrix, on values up to B in magnitude ---- *)
Definition row_far (k B e D : Z) (n : positive) (a b c : fl) (qa qb qc : Z) : bool :=
  let p := (rup k qa + rup k qb + rup k qc)%Z in let d := (gap prec emax k n a qa + gap prec emax k n b qb + gap prec emax k n c qc)%Z in let o := (2 ^ k * Zpos n)%Z in
  (good prec emax k a && good prec emax k b && good prec emax k c && ((100 * e + 402 * B) * p + 101 * B * 2 ^ prec * d + o <=? 100 * D * o) && (p <=? 3 * o) && (1000 * d <=? o))%Z%bool.
Definition mat_far (k B e D : Z) (m : mat33 fl) (q : imat) : bool :=
  match m, q with Mat33 a b c d e0 f g h i, IM (Mat33 a' b' c' d' e' f' g' h' i') n => row_far k B e D n a b c a' b' c' && row_far k B e D n d e0 f d' e' f' && row_far k B e D n g h i g' h' i' end.
Lemma term_far m q x y e b : 1 <= b -> Rabs y <= b -> 0 <= e <= / 1000 -> Rabs (x - y) <= e -> Rabs (m * x - q * y) <= e * Rabs q + 1.001 * (b * Rabs (m - q)) /\ Rabs (m * x) <= 1.001 * (b * (Rabs q + Rabs (m - q))).
Proof.
  intros B1 Y E H. assert (X : Rabs x <= 1.001 * b). { replace x with (y + (x - y)) by ring. eapply Rle_trans; [apply Rabs_triang|]. lra. } pose proof (Rabs_pos q). pose proof (Rabs_pos (m - q)). split.
  - replace (m * x - q * y) with (q * (x - y) + (m - q) * x) by ring. eapply Rle_trans; [apply Rabs_triang|]. rewrite !Rabs_mult. assert (Rabs q * Rabs (x - y) <= Rabs q * e) by (apply Rmult_le_compat_l; lra). assert (Rabs (m - q) * Rabs x <= Rabs (m - q) * (1.001 * b)) by (apply Rmult_le_compat_l; lra). lra.
  - rewrite Rabs_mult. apply Rle_trans with ((Rabs q + Rabs (m - q)) * (1.001 * b)); [|lra]. apply Rmult_le_compat; try apply Rabs_pos; [|exact X]. replace m with (q + (m - q)) at 1 by ring. apply Rabs_triang.
Qed.
Lemma row_far_ok k B e D n a b c za zb zc x y z X Y Z : (0 <= k)%Z -> (1 <= B <= 60)%Z -> (0 <= e <= 2600)%Z -> row_far k B e D n a b c za zb zc = true -> is_finite x = true -> is_finite y = true -> is_finite z = true -> Rabs X <= IZR B -> Rabs Y <= IZR B -> Rabs Z <= IZR B ->
  Rabs (B2R x - X) <= IZR e * u -> Rabs (B2R y - Y) <= IZR e * u -> Rabs (B2R z - Z) <= IZR e * u ->
  is_finite (fdot prec emax a b c x y z) = true /\ Rabs (B2R (fdot prec emax a b c x y z) - (Q2R (za # n) * X + Q2R (zb # n) * Y + Q2R (zc # n) * Z)) <= IZR D * u /\ Rabs (Q2R (za # n) * X + Q2R (zb # n) * Y + Q2R (zc # n) * Z) <= 180.
Proof.
  intros K HB E RF Fx Fy Fz HX HY HZ Ex Ey Ez. unfold row_far in RF. cbv zeta in RF. rewrite !andb_true_iff, !Z.leb_le in RF. destruct RF as [[[[[Ga Gb] Gc] R1] R2] R3].
  destruct (CurveProofs.u24 prec P5) as [U0 U]. destruct (eta_le prec emax E5) as [T0 T]. pose proof (big emax ltac:(lia)) as BG.
  destruct (gap_ok prec emax k n a za K Ga) as [Fa Da]. destruct (gap_ok prec emax k n b zb K Gb) as [Fb Db]. destruct (gap_ok prec emax k n c zc K Gc) as [Fc Dc]. pose proof (rup_ok k n za K) as Pa. pose proof (rup_ok k n zb K) as Pb. pose proof (rup_ok k n zc K) as Pc.
  set (qa := Q2R (za # n)) in *. set (qb := Q2R (zb # n)) in *. set (qc := Q2R (zc # n)) in *.
  destruct (unit_pos k n K) as (OP & ON & OE). set (oz := (2 ^ k * Zpos n)%Z) in *. assert (O : 0 < IZR oz) by (rewrite OE; apply Rmult_lt_0_compat; assumption). clearbody oz.
  apply IZR_le in R1, R2, R3. rewrite !plus_IZR, !mult_IZR, !plus_IZR, !mult_IZR in R1. rewrite mult_IZR, !plus_IZR in R2, R3. set (o := IZR oz) in *.
  assert (EE : 0 <= IZR e <= 2600) by (split; apply IZR_le; lia). assert (BB : 1 <= IZR B <= 60) by (split; apply IZR_le; lia). set (bb := IZR B) in *.
  set (rho := Rabs (qa) + Rabs (qb) + Rabs (qc)). set (del := Rabs (B2R a - qa) + Rabs (B2R b - qb) + Rabs (B2R c - qc)).
  assert (RO : rho * o <= IZR (rup k za) + IZR (rup k zb) + IZR (rup k zc)) by (unfold rho; lra). assert (DO : del * o <= IZR (gap prec emax k n a za) + IZR (gap prec emax k n b zb) + IZR (gap prec emax k n c zc)) by (unfold del; lra).
  set (p := IZR (rup k za) + IZR (rup k zb) + IZR (rup k zc)) in *. set (d := IZR (gap prec emax k n a za) + IZR (gap prec emax k n b zb) + IZR (gap prec emax k n c zc)) in *.
  assert (R0 : 0 <= rho) by (unfold rho; pose proof (Rabs_pos (qa)); pose proof (Rabs_pos (qb)); pose proof (Rabs_pos (qc)); lra). assert (D0 : 0 <= del) by (unfold del; pose proof (Rabs_pos (B2R a - qa)); pose proof (Rabs_pos (B2R b - qb)); pose proof (Rabs_pos (B2R c - qc)); lra).
  assert (RH : rho <= 3) by (apply (Rmult_le_reg_r o); lra). assert (DL : del <= / 1000) by (apply (Rmult_le_reg_r o); lra).
  assert (TP : IZR (2 ^ prec) * u = 1). { change 2%Z with (radix_val radix2). rewrite IZR_Zpower by lia. rewrite <- bpow_plus. replace (prec + - prec)%Z with 0%Z by lia. reflexivity. } set (tp := IZR (2 ^ prec)) in *. assert (TP0 : 0 <= tp) by (apply IZR_le, Z.pow_nonneg; lia).
  assert (BT0 : 0 <= bb * tp) by (apply Rmult_le_pos; lra). assert (BD0 : 0 <= bb * del) by (apply Rmult_le_pos; lra). assert (BR0 : 0 <= bb * rho <= 60 * 3) by (split; [apply Rmult_le_pos|apply Rmult_le_compat]; lra).
  assert (MAIN : IZR e * u * rho + 4.02 * u * (bb * rho) + 1.01 * (bb * del) + 0.01 * u <= IZR D * u).
  { assert (A1 : (100 * IZR e + 402 * bb) * (rho * o) <= (100 * IZR e + 402 * bb) * p) by (apply Rmult_le_compat_l; lra). assert (A2 : 101 * (bb * tp) * (del * o) <= 101 * (bb * tp) * d) by (apply Rmult_le_compat_l; lra).
    assert (A3 : ((100 * IZR e + 402 * bb) * rho + 101 * (bb * tp) * del + 1) * o <= 100 * IZR D * o) by lra. apply Rmult_le_reg_r in A3; [|exact O]. assert (A4 : ((100 * IZR e + 402 * bb) * rho + 101 * (bb * tp) * del + 1) * u <= 100 * IZR D * u) by (apply Rmult_le_compat_r; lra).
    replace (((100 * IZR e + 402 * bb) * rho + 101 * (bb * tp) * del + 1) * u) with (100 * (IZR e * u * rho) + 402 * u * (bb * rho) + 101 * (tp * u) * (bb * del) + u) in A4 by ring. rewrite TP in A4. lra. }
  assert (EU : 0 <= IZR e * u <= / 1000). { split; [apply Rmult_le_pos; lra|]. apply Rle_trans with (2600 * / 10000000); [apply Rmult_le_compat; lra|lra]. }
  destruct (term_far (B2R a) (qa) (B2R x) X _ bb (proj1 BB) HX EU Ex) as [A1 A2]. destruct (term_far (B2R b) (qb) (B2R y) Y _ bb (proj1 BB) HY EU Ey) as [B1 B2]. destruct (term_far (B2R c) (qc) (B2R z) Z _ bb (proj1 BB) HZ EU Ez) as [C1 C2].
  assert (AD : adot prec emax a b c x y z <= 1.001 * (bb * rho + bb * del)) by (unfold adot, rho, del; lra). assert (BDL : bb * del <= 60 * / 1000) by (apply Rmult_le_compat; lra).
  assert (F : is_finite (fdot prec emax a b c x y z) = true) by (apply fdot_finite; try assumption; [lia|lra]). split; [exact F|]. split.
  - pose proof (fdot_err prec emax a b c x y z ltac:(lia) F) as H. assert (H2 : 4 * u * adot prec emax a b c x y z <= 4 * u * (1.001 * (bb * rho + bb * del))) by (apply Rmult_le_compat_l; lra).
    assert (ED : Rabs (edot prec emax a b c x y z - (qa * X + qb * Y + qc * Z)) <= IZR e * u * rho + 1.001 * (bb * del)).
    { unfold edot. apply Rabs_le_inv in A1, B1, C1. replace (IZR e * u * rho) with (IZR e * u * Rabs (qa) + IZR e * u * Rabs (qb) + IZR e * u * Rabs (qc)) by (unfold rho; ring). replace (bb * del) with (bb * Rabs (B2R a - qa) + bb * Rabs (B2R b - qb) + bb * Rabs (B2R c - qc)) by (unfold del; ring). apply Rabs_le. lra. }
    assert (u * (bb * del) <= / 10000000 * (bb * del)) by (apply Rmult_le_compat_r; lra). assert (0 <= u * (bb * rho)) by (apply Rmult_le_pos; lra). apply Rabs_le_inv in H, ED. apply Rabs_le. lra.
  - apply Rle_trans with (bb * rho); [|lra]. unfold rho. assert (Q : forall q t, Rabs t <= bb -> Rabs (q * t) <= bb * Rabs q). { intros q t Ht. rewrite Rabs_mult, Rmult_comm. apply Rmult_le_compat_r; [apply Rabs_pos|lra]. }
    pose proof (Q (qa) X HX). pose proof (Q (qb) Y HY). pose proof (Q (qc) Z HZ). eapply Rle_trans; [apply Rabs_triang|]. pose proof (Rabs_triang (qa * X) (qb * Y)). lra.
Qed.

(* ---- images ---- *)
Definition src_far {K : XConst} (T M : Z) (b e : R) (decf : fl -> fl) (decx : xr -> xr) : Prop := forall k, (0 <= k <= T)%Z ->
  exists y, decx (dequantize M k) = Fin y /\ Rabs y <= b /\ is_finite (decf (@dequantize _ ops M k)) = true /\ Rabs (B2R (decf (@dequantize _ ops M k)) - y) <= e.
Definition tgt_far {K : XConst} (N w : Z) (D : R) (encf : fl -> fl) (encx : xr -> xr) : Prop := forall v y, is_finite v = true -> Rabs y <= 180 -> Rabs (B2R v - y) <= D ->
  (Z.abs (@quantize _ ops N (encf v) - quantize N (encx (Fin y))) <= w)%Z.
Lemma image_far {K : XConst} w T M N sf tf sx tx decf encf decx encx m q k B e D : (exists E, acts sf decf E) -> (exists E, acts tf E encf) -> (exists E, acts sx decx E) -> (exists E, acts tx E encx) ->
  @rgb_to_rgb_matrix _ ops sf tf = Ret m -> rgb_to_rgb_matrix sx tx = Ret (FinM (toR (toQ q))) -> (0 <= k)%Z -> (1 <= B <= 60)%Z -> (0 <= e <= 2600)%Z -> mat_far k B e D m q = true ->
  src_far T M (IZR B) (IZR e * u) decf decx -> tgt_far N w (IZR D * u) encf encx -> part_image w T M N sf tf sx tx.
Proof.
  intros (? & SF' & _) (? & _ & TF) (? & SX & _) (? & _ & TX) MF MX K0 HB E FT SRC TGT px to to' IN LE LE'.
  unfold rgb_to_rgb. rewrite MF, MX. cbn [obind].
  enough (G : exists out out', @rgb_to_rgb_loop _ ops _ (@rgb_to_uint _ ops N) sf tf m to (map (@rgb_of_uint _ ops M) px) = (length px, out) /\ rgb_to_rgb_loop (rgb_to_uint N) sx tx (FinM (toR (toQ q))) to' (map (rgb_of_uint M) px) = (length px, out') /\ Forall2 (close w) out out').
  { destruct G as (out & out' & G1 & G2 & G3). exists out, out'. rewrite G1, G2. repeat split; assumption. }
  revert to to' LE LE'. induction IN as [|[r g b] px (Hr & Hg & Hb) IN IH]; intros to to' LE LE'.
  - destruct to; [|discriminate]. destruct to'; [|discriminate]. exists [], []. repeat split. constructor.
  - destruct to as [|t to]; [discriminate|]. destruct to' as [|t' to']; [discriminate|]. cbn [length] in LE, LE'. destruct (IH to to' ltac:(lia) ltac:(lia)) as (out & out' & G1 & G2 & G3). cbn [map rgb_to_rgb_loop]. rewrite G1, G2. do 2 eexists. split; [reflexivity|]. split; [reflexivity|]. constructor; [|exact G3].
    unfold cs_encode, cs_decode, rgb_of_uint. rewrite SF', SX. unfold per_channel. cbn [rgb_r rgb_g rgb_b] in *.
    destruct (SRC r Hr) as (X & EX & BX & FX & NX). destruct (SRC g Hg) as (Y & EY & BY & FY & NY). destruct (SRC b Hb) as (Z & EZ & BZ & FZ & NZ). rewrite EX, EY, EZ.
    change (Rgb (Fin X) (Fin Y) (Fin Z)) with (FinRgb (X, Y, Z)). rewrite mat_mul_rgb_fin, TF, TX. destruct m as [m0 m1 m2 m3 m4 m5 m6 m7 m8]. destruct q as [[q0 q1 q2 q3 q4 q5 q6 q7 q8] n].
    unfold mat_far in FT. rewrite !andb_true_iff in FT. destruct FT as [[T0 T1] T2].
    destruct (row_far_ok k B e D n _ _ _ _ _ _ _ _ _ X Y Z K0 HB E T0 FX FY FZ BX BY BZ NX NY NZ) as (F0 & D0 & B0). destruct (row_far_ok k B e D n _ _ _ _ _ _ _ _ _ X Y Z K0 HB E T1 FX FY FZ BX BY BZ NX NY NZ) as (F1 & D1 & B1). destruct (row_far_ok k B e D n _ _ _ _ _ _ _ _ _ X Y Z K0 HB E T2 FX FY FZ BX BY BZ NX NY NZ) as (F2 & D2 & B2).
    repeat split; [exact (TGT _ _ F0 B0 D0)|exact (TGT _ _ F1 B1 D1)|exact (TGT _ _ F2 B2 D2)].
Qed.

(* ---- reading LogC ---- *)
Context (LO : lit_ok prec emax lit) (TN : (good prec emax 60 (lit 10.0%Q) && (zent prec emax 60 (lit 10.0%Q) =? 10 * 2 ^ 60)%Z)%bool = true).
Lemma logc_abs v y p r : rel r (5.555556 * v + 0.052272) p -> 5.555556 * y + 0.052272 = p -> Rabs (v - y) <= r * p / 5.555556.
Proof. intros R <-. unfold rel in R. apply Rabs_le_inv in R. apply Rabs_le. lra. Qed.
Lemma src_alexa {K : XConst} T M (B e : Z) (pm : R) : powf_ten prec emax (l_powf L) -> (1 <= M <= 65535)%Z -> In M depths -> (T <= M)%Z -> (1 <= B)%Z -> (1 <= e)%Z -> (forall k, (0 <= k <= T)%Z -> Rpower 10 ((IZR k / IZR M - 0.385537) / 0.247190) <= pm) ->
  pm <= 5.5 * IZR B -> 44 * pm / 5.555556 <= IZR e -> src_far T M (IZR B) (IZR e * u) (@dec_alexa_t _ ops) dec_alexa_t.
Proof.
  intros PT HM IM HT HB He' TOP PB PE k Hk. pose proof (ten prec emax lit TN) as TEN. destruct (fdeq prec emax P5 L lit M k HM ltac:(lia)) as (F & Bx & Q & E). destruct (CurveProofs.u24 prec P5) as [U0 U]. rewrite xdeq by lia. rewrite (proj2 alexa_x).
  pose proof (clear_ok 149658 1000000 M k ltac:(vm_compute; reflexivity) ltac:(lia) ltac:(lia) IM) as CL. specialize (TOP k Hk). set (t := IZR k / IZR M) in *. set (x := @dequantize _ ops M k) in *. assert (KN : IZR 149658 / IZR 1000000 = 0.149658) by lra. rewrite KN in CL. clear KN.
  pose proof (ecf_near prec emax P5 lit LO) as EN. pose proof E as E'. apply Rabs_le_inv in E', EN. assert (B1 : 1 <= IZR B) by (apply IZR_le; lia). assert (e1 : 1 <= IZR e) by (apply IZR_le; lia).
  exists (decA t). split; [reflexivity|]. unfold decA. destruct (Rle_dec t 0.149658) as [D|D].
  - rewrite Rabs_left1 in CL by lra. destruct (dec_cases prec emax L lit LO x F) as [[C ->]|[C _]]; [|exfalso; lra]. destruct (dec_lin_round prec emax P5 E5 lit LO x t F Q E C) as [G H].
    split; [unfold dLin; apply Rabs_le; lra|]. split; [exact G|]. eapply Rle_trans; [exact H|]. apply Rmult_le_compat_r; lra.
  - rewrite Rabs_pos_eq in CL by lra. destruct (dec_cases prec emax L lit LO x F) as [[C _]|[C ->]]; [exfalso; lra|]. destruct (dec_log_round prec emax P5 E5 L lit LO TEN PT x t F Q E C) as (G & H & P9 & _).
    pose proof (logc_abs _ (dLog t) _ _ H (dLog_arg t)) as A. split; [pose proof (dLog_arg t); apply Rabs_le; lra|]. split; [exact G|]. eapply Rle_trans; [exact A|].
    set (p := Rpower 10 _) in *. assert (44 * u * p <= 44 * u * pm) by (apply Rmult_le_compat_l; lra). assert (44 * pm / 5.555556 * u <= IZR e * u) by (apply Rmult_le_compat_r; lra). lra.
Qed.

(* ---- writing values far out of range ---- *)
Notation pw := (l_powf L).
Context (PW : powf_ok prec emax pw) (PZ : powf_zero prec emax pw) (PN : powf_neg prec emax pw) (PF : powf_far pw).
Context (E6 : IZR (emax + prec) * u <= / 10000) (E7 : (2 * prec <= emax)%Z).
Lemma high_power x p : 4.9 <= x -> 0.36 <= p <= 1 -> 1.7 <= Rpower x p.
Proof.
  intros X P. apply Rle_trans with (Rpower 4.9 0.36). { left. apply (lt_frac_power _ _ 9 25); [lra|lra|cbn; lra|lia|cbn; lra]. }
  apply Rle_trans with (Rpower 4.9 p); [apply Rle_Rpower; lra|apply Rle_Rpower_l; lra].
Qed.
Lemma far_up v p : is_finite v = true -> is_finite p = true -> 4.9 <= B2R v <= 200 -> 0.36 <= B2R p <= 1 -> is_finite (pw v p) = true /\ 1.69 <= B2R (pw v p) <= 201.
Proof.
  intros Fv Fp V P. destruct (CurveProofs.u24 prec P5) as [U0 U]. destruct (PF v p Fv Fp ltac:(lra) ltac:(lra)) as [F R]. split; [exact F|]. apply rel_bounds in R.
  pose proof (high_power (B2R v) (B2R p) ltac:(lra) P) as G. pose proof (pow_above (B2R v) (B2R p) ltac:(lra) ltac:(lra)) as A. set (w := Rpower (B2R v) (B2R p)) in *. assert (0 <= u * w <= / 10000000 * 200) by (split; [apply Rmult_le_pos|apply Rmult_le_compat]; lra). lra.
Qed.
Lemma far_high v fa fo fp : is_finite v = true -> is_finite fp = true -> is_finite fa = true -> is_finite fo = true -> 4.9 <= B2R v <= 200 -> 0.36 <= B2R fp <= 1 -> 1.05 <= B2R fa <= 1.1 -> 0 <= B2R fo <= 0.1 ->
  is_finite (Bminus mode_NE (Bmult mode_NE fa (pw v fp)) fo) = true /\ 1 <= B2R (Bminus mode_NE (Bmult mode_NE fa (pw v fp)) fo).
Proof.
  intros Fv Fp Fa Fo V P A O. destruct (CurveProofs.u24 prec P5) as [U0 U]. pose proof (tiny_le emax E5) as [T0 T]. destruct (far_up v fp Fv Fp V P) as [Fw W]. set (w := pw v fp) in *.
  assert (AW : 1.05 * 1.69 <= B2R fa * B2R w <= 1.1 * 201) by (split; apply Rmult_le_compat; lra). destruct (fmul prec emax P5 E5 fa w Fa Fw ltac:(lra)) as [Fm Rm]. apply rel_bounds in Rm. set (m := Bmult mode_NE fa w) in *.
  assert (0 <= u * (B2R fa * B2R w) <= / 10000000 * (1.1 * 201)) by (split; [apply Rmult_le_pos|apply Rmult_le_compat]; lra). assert (Bm : 1.7 <= B2R m <= 230) by lra.
  assert (AB : Rabs (B2R m - B2R fo) <= 230) by (apply Rabs_le; lra). destruct (fminus prec emax P5 E5 m fo Fm Fo ltac:(lra)) as [Fd Rd]. split; [exact Fd|]. assert (u * Rabs (B2R m - B2R fo) <= / 10000000 * 230) by (apply Rmult_le_compat; try apply Rabs_pos; lra). apply Rabs_le_inv in Rd. lra.
Qed.
Lemma far_low v fs : is_finite v = true -> is_finite fs = true -> -200 <= B2R v <= -4.9 -> 4 <= B2R fs <= 13 -> is_finite (Bmult mode_NE v fs) = true /\ B2R (Bmult mode_NE v fs) <= 0.
Proof.
  intros Fv Fs V H. destruct (CurveProofs.u24 prec P5) as [U0 U]. destruct (eta_le prec emax E5) as [T0 T]. assert (BG : 1048576 <= bpow radix2 emax) by (change 1048576 with (bpow radix2 20); apply bpow_le; lia).
  assert (B : - (200 * 13) <= B2R v * B2R fs <= - (4.9 * 4)). { split; [apply Ropp_le_cancel; rewrite Ropp_involutive; replace (- (B2R v * B2R fs)) with (- B2R v * B2R fs) by ring; apply Rmult_le_compat; lra|]. replace (B2R v * B2R fs) with (- (- B2R v * B2R fs)) by ring. apply Ropp_le_contravar. apply Rmult_le_compat; lra. }
  set (z := B2R v * B2R fs) in *. pose proof (rnd_any prec emax z) as R. assert (u * Rabs z <= / 10000000 * 2600) by (apply Rmult_le_compat; [lra|apply Rabs_pos|lra|apply Rabs_le; lra]). apply Rabs_le_inv in R.
  assert (F : is_finite (Bmult mode_NE v fs) = true). { apply mult_small; try assumption. fold z. apply Rabs_def1; lra. } split; [exact F|]. apply mult_fin in F. destruct F as (_ & _ & E). rewrite E. fold z. lra.
Qed.
Lemma out_of_range (v : fl) y D : D <= 0.001 -> Rabs y <= 180 -> Rabs (B2R v - y) <= D -> Rabs y <= 5 \/ (5 < y <= 180 /\ 4.9 <= B2R v <= 200) \/ (-180 <= y < -5 /\ -200 <= B2R v <= -4.9).
Proof. intros HD Y H. apply Rabs_le_inv in Y, H. destruct (Rle_dec y 5) as [A|A]; [|right; left; lra]. destruct (Rle_dec (-5) y) as [C|C]; [left; apply Rabs_le; lra|right; right; lra]. Qed.
Lemma high_x a o g y : 1.05 <= a <= 1.1 -> 0 <= o <= 0.1 -> 1.5 <= g <= 2.7 -> 5 < y -> 1 <= a * Rpower y (/ g) - o.
Proof.
  intros A O G Y. assert (PR : 0.36 <= / g <= 1). { split; [apply Rle_trans with (/ 2.7); [lra|]|apply Rle_trans with (/ 1.5); [|lra]]; apply Rinv_le; lra. } pose proof (high_power y (/ g) ltac:(lra) PR) as H. assert (1.05 * 1.7 <= a * Rpower y (/ g)) by (apply Rmult_le_compat; lra). lra.
Qed.
Lemma same_w w a : (1 <= w)%Z -> (Z.abs (a - a) <= w)%Z. Proof. intro H. rewrite Z.sub_diag. cbn. lia. Qed.
Lemma hi_codes {K : XConst} N w x z : (1 <= N <= 65535)%Z -> (1 <= w)%Z -> is_finite x = true -> 1 <= B2R x -> 1 <= z -> (Z.abs (@quantize _ ops N x - quantize N (Fin z)) <= w)%Z.
Proof. intros HN HW F X Z. rewrite (both_high prec emax P5 L lit N x z HN F X Z). apply same_w, HW. Qed.
Lemma lo_codes {K : XConst} N w x z : (1 <= N <= 65535)%Z -> (1 <= w)%Z -> is_finite x = true -> B2R x <= 0 -> z <= 0 -> (Z.abs (@quantize _ ops N x - quantize N (Fin z)) <= w)%Z.
Proof. intros HN HW F X Z. rewrite (both_low prec emax P5 L lit N x z HN F X Z). apply same_w, HW. Qed.
Context {K : XConst} {KO : XConstOk K}.
Lemma far_of_near k N w D : In k kinds -> (1 <= N <= 65535)%Z -> (1 <= w)%Z -> 0 <= D <= 0.001 -> match k with KLin => True | _ => tgt_ok prec emax L lit N w D (@kenc _ ops k) (kenc k) end -> (k = KLin -> IZR N * (D + u) < IZR w) -> tgt_far N w D (@kenc _ ops k) (kenc k).
Proof.
  intros I HN HW HD TG HL v y F Y H. destruct (CurveProofs.u24 prec P5) as [U0 U]. pose proof (tiny_le emax E5) as [T0 T].
  destruct (out_of_range v y D (proj2 HD) Y H) as [A|[[A V]|[A V]]].
  { destruct k; try exact (TG v y F A H). exact (tgt_linear prec emax P5 L lit N w D HN (HL eq_refl) v y F A H). }
  - destruct k as [| | |g|]; cbn [kenc].
    + rewrite (proj2 srgb_x). destruct (l_pos prec emax lit LO 0.055%Q 0.055 eq_refl ltac:(lra)) as [Fo Ro]. destruct (l_pos prec emax lit LO 2.4%Q 2.4 eq_refl ltac:(lra)) as [Fg Rg]. destruct (l_pos prec emax lit LO 0.0031308%Q 0.0031308 eq_refl ltac:(lra)) as [F0 R0].
      destruct (recip prec emax P5 E5 lit (lit 2.4%Q) 2.4 LO Fg Rg ltac:(lra)) as [Fp Rp]. pose proof (one_fin prec emax lit LO) as Fone. pose proof (proj2 LO) as Vone. apply rel_bounds in Ro, Rp, R0.
      destruct (fplus prec emax P5 E5 (lit 1.0%Q) (lit 0.055%Q) Fone Fo ltac:(rewrite Vone; lra)) as [Fa2 Ra2]. apply rel_bounds in Ra2. rewrite Vone in Ra2. assert (I24 : / 2.4 = 5 / 12) by lra. rewrite I24 in Rp. assert (Bp : 0.36 <= B2R (Bdiv mode_NE (lit 1.0%Q) (lit 2.4%Q)) <= 1) by lra. assert (Ba : 1.05 <= B2R (Bplus mode_NE (lit 1.0%Q) (lit 0.055%Q)) <= 1.1) by (clear - Ra2 Ro U0 U; nra).
      unfold enc_srgb_t. cbn [rle rlit rmul rsub radd rdiv rpowf b_ops]. destruct (le_cases prec emax v (lit 0.0031308%Q) F F0) as [[-> C]|[-> C]]; [exfalso; lra|].
      destruct (far_high v _ _ _ F Fp Fa2 Fo V Bp Ba ltac:(lra)) as [G1 G2]. apply (hi_codes N w _ _ HN HW G1 G2). unfold encR. destruct (Rle_dec y 0.0031308); [exfalso; lra|]. apply high_x; lra.
    + rewrite (proj2 bt709_x). destruct (l_pos prec emax lit LO 0.099%Q 0.099 eq_refl ltac:(lra)) as [Fo Ro]. destruct (l_pos prec emax lit LO 1.099%Q 1.099 eq_refl ltac:(lra)) as [Fa Ra]. destruct (l_pos prec emax lit LO 0.45%Q 0.45 eq_refl ltac:(lra)) as [Fp Rp]. destruct (l_pos prec emax lit LO 0.018%Q 0.018 eq_refl ltac:(lra)) as [F0 R0]. apply rel_bounds in Ro, Ra, Rp, R0.
      unfold enc_bt709_t. cbn [rle rlit rmul rsub radd rdiv rpowf b_ops]. destruct (le_cases prec emax v (lit 0.018%Q) F F0) as [[-> C]|[-> C]]; [exfalso; lra|].
      destruct (far_high v _ _ _ F Fp Fa Fo V ltac:(lra) ltac:(lra) ltac:(lra)) as [G1 G2]. apply (hi_codes N w _ _ HN HW G1 G2). unfold encR. destruct (Rle_dec y 0.018); [exfalso; lra|]. apply high_x; lra.
    + rewrite (proj2 bt2020_x). destruct (bt709_consts prec emax P5 E5 lit LO) as (fg & ft1 & fo & Eg & E1 & Eo & _ & _ & Fo & _ & _ & Ro). destruct (l_pos prec emax lit LO 1.099%Q 1.099 eq_refl ltac:(lra)) as [Fa Ra]. destruct (l_pos prec emax lit LO 0.45%Q 0.45 eq_refl ltac:(lra)) as [Fp Rp]. destruct (l_pos prec emax lit LO 0.018%Q 0.018 eq_refl ltac:(lra)) as [F0 R0]. apply rel_bounds in Ra, Rp, R0. apply Rabs_le_inv in Ro.
      unfold enc_bt2020_t. cbv zeta. cbn [rlt rlit rmul rsub radd rdiv rpowf b_ops]. rewrite <- Eo. destruct (lt_cases prec emax v (lit 0.018%Q) F F0) as [[-> C]|[-> C]]; [exfalso; lra|].
      destruct (far_high v _ _ _ F Fp Fa Fo V ltac:(lra) ltac:(lra) ltac:(lra)) as [G1 G2]. apply (hi_codes N w _ _ HN HW G1 G2). unfold encR'. destruct (Rlt_dec y 0.018); [exfalso; lra|]. apply high_x; lra.
    + pose proof (kinds_pow g I) as G. destruct (litd_ok prec emax P5 E5) as [LD _]. destruct (LD g ltac:(lra)) as [Fg Rg]. destruct (recip prec emax P5 E5 _ _ _ (litd_ok prec emax P5 E5) Fg Rg ltac:(lra)) as [Fp Rp]. apply rel_bounds in Rp.
      assert (PR : 0.37 <= / Q2R g <= 0.5). { split; [apply Rle_trans with (/ 2.7); [lra|]|replace 0.5 with (/ 2) by lra]; apply Rinv_le; lra. } change (rpowf (Fin y) (rdiv (rlitd 1.0%Q) (rlitd g))) with (@kenc _ xr_ops (KPow g) (Fin y)). rewrite (proj1 (powx g (Fin y) ltac:(lra))), rootx_pos by lra.
      destruct (far_up v _ F Fp V ltac:(clear - Rp PR U0 U; nra)) as [G1 G2]. cbn [rpowf rdiv rlitd b_ops]. apply (hi_codes N w _ _ HN HW G1 ltac:(lra)). pose proof (high_power y (/ Q2R g) ltac:(lra) ltac:(lra)). lra.
    + apply (hi_codes N w _ _ HN HW F); lra.
  - destruct k as [| | |g|]; cbn [kenc].
    + rewrite (proj2 srgb_x). destruct (l_pos prec emax lit LO 12.92%Q 12.92 eq_refl ltac:(lra)) as [Fs Rs]. destruct (l_pos prec emax lit LO 0.0031308%Q 0.0031308 eq_refl ltac:(lra)) as [F0 R0]. apply rel_bounds in Rs, R0.
      unfold enc_srgb_t. cbn [rle rlit rmul rsub radd rdiv rpowf b_ops]. destruct (le_cases prec emax v (lit 0.0031308%Q) F F0) as [[-> C]|[-> C]]; [|exfalso; lra].
      destruct (far_low v _ F Fs V ltac:(lra)) as [G1 G2]. apply (lo_codes N w _ _ HN HW G1 G2). unfold encR. destruct (Rle_dec y 0.0031308); lra.
    + rewrite (proj2 bt709_x). destruct (l_pos prec emax lit LO 4.5%Q 4.5 eq_refl ltac:(lra)) as [Fs Rs]. destruct (l_pos prec emax lit LO 0.018%Q 0.018 eq_refl ltac:(lra)) as [F0 R0]. apply rel_bounds in Rs, R0.
      unfold enc_bt709_t. cbn [rle rlit rmul rsub radd rdiv rpowf b_ops]. destruct (le_cases prec emax v (lit 0.018%Q) F F0) as [[-> C]|[-> C]]; [|exfalso; lra].
      destruct (far_low v _ F Fs V ltac:(lra)) as [G1 G2]. apply (lo_codes N w _ _ HN HW G1 G2). unfold encR. destruct (Rle_dec y 0.018); lra.
    + rewrite (proj2 bt2020_x). destruct (l_pos prec emax lit LO 4.5%Q 4.5 eq_refl ltac:(lra)) as [Fs Rs]. destruct (l_pos prec emax lit LO 0.018%Q 0.018 eq_refl ltac:(lra)) as [F0 R0]. apply rel_bounds in Rs, R0.
      unfold enc_bt2020_t. cbv zeta. cbn [rlt rlit rmul rsub radd rdiv rpowf b_ops]. destruct (lt_cases prec emax v (lit 0.018%Q) F F0) as [[-> C]|[-> C]]; [|exfalso; lra].
      destruct (far_low v _ F Fs V ltac:(lra)) as [G1 G2]. apply (lo_codes N w _ _ HN HW G1 G2). unfold encR'. destruct (Rlt_dec y 0.018); lra.
    + pose proof (kinds_pow g I) as G. destruct (litd_ok prec emax P5 E5) as [LD _]. destruct (LD g ltac:(lra)) as [Fg Rg]. destruct (recip prec emax P5 E5 _ _ _ (litd_ok prec emax P5 E5) Fg Rg ltac:(lra)) as [Fp Rp]. apply rel_bounds in Rp.
      assert (PR : 0.37 <= / Q2R g <= 0.5). { split; [apply Rle_trans with (/ 2.7); [lra|]|replace 0.5 with (/ 2) by lra]; apply Rinv_le; lra. } change (rpowf (Fin y) (rdiv (rlitd 1.0%Q) (rlitd g))) with (@kenc _ xr_ops (KPow g) (Fin y)). rewrite (proj1 (powx g (Fin y) ltac:(lra))).
      rewrite (nonpos_x N (/ Q2R g) y ltac:(lia) ltac:(lra) ltac:(lra)). cbn [rpowf rdiv rlitd b_ops]. rewrite (nonpos_f prec emax P5 L lit PZ PN N _ v HN F Fp ltac:(clear - Rp PR U0 U; nra) ltac:(lra)). apply same_w, HW.
    + apply (lo_codes N w _ _ HN HW F); lra.
Qed.
Lemma far_kcurve k N M w D : match k with KPow _ | KLin => False | _ => True end -> In k kinds -> (1 <= N <= M)%Z -> (M <= 65535)%Z -> (1 <= w)%Z -> 0 <= D <= 0.001 -> IZR M * (13 * D + knee_jump k + 33 * u + u) < IZR w -> tgt_far N w D (@kenc _ ops k) (kenc k).
Proof.
  intros HK I HN HM HW HD B. apply far_of_near; [exact I|lia|exact HW|exact HD| |].
  - pose proof (tgt_kcurve prec emax P5 E5 L lit LO PW (far_wide _ PF) k N M w D HK HN HM HD B) as T. destruct k; try exact T. exact Logic.I.
  - intros ->. contradiction.
Qed.
Lemma far_kpow g N M w D B : (1 <= N <= M)%Z -> (M <= 65535)%Z -> (1 <= w)%Z -> In (KPow g) kinds -> 0 < D <= 0.001 -> Rpower D (/ Q2R g) <= B -> IZR M * (B + 1.1 * slack prec emax + u) < IZR w -> tgt_far N w D (@kenc _ ops (KPow g)) (kenc (KPow g)).
Proof.
  intros HN HM HW I HD HB H. apply far_of_near; [exact I|lia|exact HW|lra| |discriminate]. exact (tgt_kpow prec emax P5 E5 L lit PW PZ PN (far_wide _ PF) E6 E7 g N M w D B HN HM I HD HB H).
Qed.
Lemma far_klin N M w D : (1 <= N <= M)%Z -> (M <= 65535)%Z -> (1 <= w)%Z -> 0 <= D <= 0.001 -> IZR M * (D + u) < IZR w -> tgt_far N w D (@kenc _ ops KLin) (kenc KLin).
Proof.
  intros HN HM HW HD B. destruct (CurveProofs.u24 prec P5) as [U0 U]. apply far_of_near; [unfold kinds; cbn [In]; tauto|lia|exact HW|exact HD|exact Logic.I|]. intros _. apply (grow_N N M); [exact HN|lra|exact B].
Qed.
Definition fit_from (B e : Z) (ers : list Z) : bool :=
  forallb (fun a => match fst (fst a) with
    | Ret t => match @rgb_to_rgb_matrix _ ops alexa t with Ret m => mat_far 200 B e (snd (fst a)) m (snd a) | _ => false end
    | _ => false end) (combine (combine (@spaces _ ops) ers) from_alexa_i).
Theorem from_agree top (pm : R) B e ers limits : powf_ten prec emax pw -> length ers = 9%nat -> fit_from B e ers = true -> (1 <= B <= 60)%Z -> (1 <= e <= 2600)%Z -> pm <= 5.5 * IZR B -> 44 * pm / 5.555556 <= IZR e -> (forall M, (1 <= M)%Z -> (top M <= M)%Z) ->
  (forall M k, (1 <= M)%Z -> (0 <= k <= top M)%Z -> Rpower 10 ((IZR k / IZR M - 0.385537) / 0.247190) <= pm) ->
  (forall j k D, nth_error kinds j = Some k -> nth_error ers j = Some D -> forall d w n, In (d, w) (nth j limits []) -> (1 <= n <= d)%Z -> tgt_far (depth n) w (IZR D * u) (@kenc _ ops k) (kenc k)) -> agree_from top limits.
Proof.
  intros PT LE FC HB HE PB PE TM TP TG j Hj.
  destruct (some_at (@spaces _ ops) j Hj) as [otf Atf]. destruct (some_at (@spaces _ xr_ops) j Hj) as [otx Atx]. destruct (some_at qspaces j Hj) as [qb Aqb]. destruct (some_at kinds j Hj) as [kb Akb]. destruct (some_at ers j ltac:(lia)) as [D AD]. destruct (some_at from_alexa_i j Hj) as [ia Aia].
  destruct (nth_Forall2 _ _ _ _ _ _ all_described Aqb Atx) as (tx & -> & Dt).
  unfold fit_from in FC. rewrite forallb_forall in FC. specialize (FC _ (nth_error_In _ _ (nth_combine _ _ _ _ _ (nth_combine _ _ _ _ _ Atf AD) Aia))). cbn [fst snd] in FC.
  destruct otf as [tf| |]; try discriminate. destruct (@rgb_to_rgb_matrix _ ops alexa tf) as [m| |] eqn:EM; try discriminate.
  exists tf, tx. split; [exact Atf|]. split; [exact Atx|]. intros mm n d w Hm Hd Hn.
  assert (FW : forall x, In x qspaces -> fit_white (q_white x) = true) by (apply Forall_forall; exact all_fit).
  destruct (nth_Forall2 _ _ _ 7%nat _ _ (refs_described KO) eq_refl eq_refl) as (ax & AX & DA). injection AX as <-.
  pose proof (pair_exact qalexa qb ALEXA_WIDE_GAMUT tx DA Dt eq_refl (FW _ (nth_error_In _ _ Aqb))) as EX. rewrite <- (same_ok _ _ (nth_Forall2 _ _ _ _ _ _ from_alexa_same Aia Aqb)) in EX. pose proof (depth_in mm Hm) as DM. pose proof (depth_range _ DM) as DR.
  refine (image_far w (top (depth mm)) (depth mm) (depth n) alexa tf ALEXA_WIDE_GAMUT tx (@dec_alexa_t _ ops) (@kenc _ ops kb) dec_alexa_t (kenc kb) m ia 200 B e D _ _ _ _ EM EX ltac:(lia) HB ltac:(lia) FC _ _).
  - exists (@enc_alexa_t _ ops). split; reflexivity.
  - eexists. exact (nth_Forall2 _ _ _ _ _ _ all_act Akb Atf _ eq_refl).
  - exists enc_alexa_t. split; reflexivity.
  - eexists. exact (nth_Forall2 _ _ _ _ _ _ all_act Akb Atx _ eq_refl).
  - apply (src_alexa _ _ B e pm PT DR DM (TM _ (proj1 DR)) ltac:(lia) ltac:(lia)); [intros k Hk; apply TP; [apply DR|exact Hk]|exact PB|exact PE].
  - exact (TG j kb D Akb AD d w n Hd Hn).
Qed.
End Fmt.

(* ---- the two formats ---- *)
(* whole: every code; dim: codes up to 57 percent of full scale, which is scene light up to 1 *)
Definition whole (M : Z) : Z := M.
Definition dim (M : Z) : Z := (57 * M / 100)%Z.
Lemma whole_le M k : (1 <= M)%Z -> (0 <= k <= whole M)%Z -> Rpower 10 ((IZR k / IZR M - 0.385537) / 0.247190) <= 317.
Proof.
  intros HM Hk. unfold whole in Hk. assert (M1 : 1 <= IZR M) by (apply IZR_le; lia). assert (K1 : IZR k <= IZR M) by (apply IZR_le; lia). assert (Q : IZR k / IZR M <= 1) by (apply (Rmult_le_reg_r (IZR M)); [lra|]; unfold Rdiv; rewrite Rmult_assoc, Rinv_l by lra; lra).
  apply Rle_trans with (Rpower 10 (5 / 2)); [apply Rle_Rpower; lra|]. left. apply (gt_frac_power _ _ 5 2); [lra|lra|cbn; lra|lia|cbn; lra].
Qed.
Lemma dim_le M k : (1 <= M)%Z -> (0 <= k <= dim M)%Z -> Rpower 10 ((IZR k / IZR M - 0.385537) / 0.247190) <= 5.63.
Proof.
  intros HM Hk. unfold dim in Hk. assert (M1 : 1 <= IZR M) by (apply IZR_le; lia). assert (K1 : (100 * k <= 57 * M)%Z) by (pose proof (Z.mul_div_le (57 * M) 100); lia). apply IZR_le in K1. rewrite !mult_IZR in K1. assert (Q : IZR k / IZR M <= 0.57) by (apply (Rmult_le_reg_r (IZR M)); [lra|]; unfold Rdiv; rewrite Rmult_assoc, Rinv_l by lra; lra).
  apply Rle_trans with (Rpower 10 (3 / 4)); [apply Rle_Rpower; lra|]. left. apply (gt_frac_power _ _ 3 4); [lra|lra|cbn; lra|lia|cbn; lra].
Qed.
Lemma dim_top M : (1 <= M)%Z -> (dim M <= M)%Z.
Proof. intro H. unfold dim. apply Z.div_le_upper_bound; lia. Qed.
(* units u before encoding, per target *)
Definition whole_errs : list Z := [6500; 6500; 6500; 4300; 5900; 5300; 3700; 4500; 4800]%Z.
Definition dim_errs : list Z := [130; 130; 130; 85; 120; 115; 75; 95; 95]%Z.
(* per target, (bits, codes) *)
Definition whole32 : list (list (Z * Z)) := [[(7, 1); (8, 2); (16, 331)]; [(7, 1); (8, 2); (16, 331)]; [(7, 1); (8, 2); (16, 347)]; [(8, 1); (16, 235)]; [(8, 13); (16, 3100)]; [(8, 13); (16, 3100)]; [(11, 1); (16, 18)]; [(11, 1); (16, 18)]; [(8, 7); (16, 1620)]]%Z.
Definition dim32 : list (list (Z * Z)) := [[(13, 1); (16, 7)]; [(13, 1); (16, 7)]; [(11, 1); (16, 24)]; [(11, 1); (16, 24)]; [(8, 3); (16, 700)]; [(8, 3); (16, 700)]; [(16, 1)]; [(16, 1)]; [(7, 1); (8, 2); (16, 280)]]%Z.
Definition whole64 : list (list (Z * Z)) := [[(16, 1)]; [(16, 1)]; [(11, 1); (16, 17)]; [(11, 1); (16, 17)]; [(15, 1); (16, 2)]; [(15, 1); (16, 2)]; [(16, 1)]; [(16, 1)]; [(16, 1)]]%Z.
Notation lit32 := (fun q => f64_to_f32 (b_of_Q 53 1024 q)).
Notation lit64 := (b_of_Q 53 1024).
Lemma fit_whole32 (L : libm f32) : fit_from 24 128 L lit32 58 2535 whole_errs = true.
Proof. vm_compute. reflexivity. Qed.
Lemma fit_dim32 (L : libm f32) : fit_from 24 128 L lit32 2 45 dim_errs = true.
Proof. vm_compute. reflexivity. Qed.
Lemma fit_whole64 (L : libm f64) : fit_from 53 1024 L lit64 58 2535 whole_errs = true.
Proof. vm_compute. reflexivity. Qed.

Lemma pow_up x y p b : 0 < x <= y -> 0 <= p -> Rpower y p <= b -> Rpower x p <= b.
Proof. intros X P H. eapply Rle_trans; [|exact H]. apply Rle_Rpower_l; lra. Qed.
Lemma p3_whole x : 0 < x <= 5900 * / 16777216 -> Rpower x (/ 2.6) <= 0.0472.
Proof. intro X. apply (pow_up _ _ _ _ X); [lra|]. replace (/ 2.6) with (5 / 13) by lra. left. apply (gt_frac_power _ _ 5 13); [lra|lra|cbn; lra|lia|cbn; lra]. Qed.
Lemma p3_dim x : 0 < x <= 120 * / 16777216 -> Rpower x (/ 2.6) <= 0.0106.
Proof. intro X. apply (pow_up _ _ _ _ X); [lra|]. replace (/ 2.6) with (5 / 13) by lra. left. apply (gt_frac_power _ _ 5 13); [lra|lra|cbn; lra|lia|cbn; lra]. Qed.
Lemma adobe_whole x : 0 < x <= 4800 * / 16777216 -> Rpower x (/ 2.19921875) <= 0.0246.
Proof. intro X. apply (pow_up _ _ _ _ X); [lra|]. apply Rle_trans with (Rpower (4800 * / 16777216) (5 / 11)); [apply down_power; lra|]. left. apply (gt_frac_power _ _ 5 11); [lra|lra|cbn; lra|lia|cbn; lra]. Qed.
Lemma adobe_dim x : 0 < x <= 95 * / 16777216 -> Rpower x (/ 2.19921875) <= 0.0042.
Proof. intro X. apply (pow_up _ _ _ _ X); [lra|]. apply Rle_trans with (Rpower (95 * / 16777216) (5 / 11)); [apply down_power; lra|]. left. apply (gt_frac_power _ _ 5 11); [lra|lra|cbn; lra|lia|cbn; lra]. Qed.
Lemma p3_whole64 x : 0 < x <= 5900 * / 9007199254740992 -> Rpower x (/ 2.6) <= / 32768.
Proof. intro X. change (/ 32768) with (bpow radix2 (- (15))). apply (two_power _ 40); [change (bpow radix2 (- (40))) with (/ 1099511627776); lra|lra|lra]. Qed.
Lemma adobe_whole64 x : 0 < x <= 4800 * / 9007199254740992 -> Rpower x (/ 2.19921875) <= / 131072.
Proof. intro X. change (/ 131072) with (bpow radix2 (- (17))). apply (two_power _ 40); [change (bpow radix2 (- (40))) with (/ 1099511627776); lra|lra|lra]. Qed.
Theorem C108_whole_f32 {K : XConst} {KO : XConstOk K} (L : libm f32) : good_powf 24 128 (l_powf L) -> powf_far 24 128 (l_powf L) -> powf_ten 24 128 (l_powf L) -> agree_from 24 128 L lit32 whole whole32.
Proof.
  intros (PW & PZ & PN) PF PT. assert (E6 : IZR (128 + 24) * bpow radix2 (- (24)) <= / 10000) by (change (bpow radix2 (- (24))) with (/ 16777216); change (IZR (128 + 24)) with 152; lra). pose proof lit32_ok as LO.
  apply (from_agree 24 128 ltac:(lia) ltac:(lia) L _ LO ltac:(vm_compute; reflexivity) whole 317 58 2535 whole_errs whole32 PT eq_refl (fit_whole32 L)); [lia|lia|lra|lra|unfold whole; lia|exact whole_le|].
  intros j k D HK HD d w n I Hn. pose proof (depth_le n d Hn) as DN.
  destruct j as [|[|[|[|[|[|[|[|[|j]]]]]]]]]; cbn [nth_error kinds whole_errs nth whole32] in *; [..|destruct j; discriminate]; injection HK as <-; injection HD as <-; cbn [In] in I;
  repeat (destruct I as [I|I]; [injection I as <- <-|]); try contradiction.
  all: match goal with
    | |- tgt_far _ _ _ _ _ _ _ (kenc KLin) _ => eapply (far_klin 24 128 ltac:(lia) ltac:(lia) L _ LO PZ PN PF _ _ _ _ DN)
    | |- tgt_far _ _ _ _ _ _ _ (kenc (KPow 2.6)) _ => eapply (far_kpow 24 128 ltac:(lia) ltac:(lia) L _ LO PW PZ PN PF E6 ltac:(lia) _ _ _ _ _ 0.0472 DN)
    | |- tgt_far _ _ _ _ _ _ _ (kenc (KPow _)) _ => eapply (far_kpow 24 128 ltac:(lia) ltac:(lia) L _ LO PW PZ PN PF E6 ltac:(lia) _ _ _ _ _ 0.0246 DN)
    | |- tgt_far _ _ _ _ _ _ _ (kenc ?k) _ => eapply (far_kcurve 24 128 ltac:(lia) ltac:(lia) L _ LO PW PZ PN PF k _ _ _ _ Logic.I ltac:(cbn; tauto) DN) end.
  all: cbn [knee_jump]; unfold slack; change (bpow radix2 (- (24))) with (/ 16777216); change (IZR (128 + 24)) with 152; change (depth 16) with 65535%Z; change (depth 15) with 32767%Z; change (depth 13) with 8191%Z; change (depth 11) with 2047%Z; change (depth 8) with 255%Z; change (depth 7) with 127%Z.
  all: match goal with |- (_ <= _)%Z => lia | |- In _ _ => cbn; tauto | |- Rpower _ (/ Q2R 2.6) <= _ => apply p3_whole; lra | |- Rpower _ _ <= _ => apply adobe_whole; lra | _ => lra end.
Qed.
Theorem C108_dim_f32 {K : XConst} {KO : XConstOk K} (L : libm f32) : good_powf 24 128 (l_powf L) -> powf_far 24 128 (l_powf L) -> powf_ten 24 128 (l_powf L) -> agree_from 24 128 L lit32 dim dim32.
Proof.
  intros (PW & PZ & PN) PF PT. assert (E6 : IZR (128 + 24) * bpow radix2 (- (24)) <= / 10000) by (change (bpow radix2 (- (24))) with (/ 16777216); change (IZR (128 + 24)) with 152; lra). pose proof lit32_ok as LO.
  apply (from_agree 24 128 ltac:(lia) ltac:(lia) L _ LO ltac:(vm_compute; reflexivity) dim 5.63 2 45 dim_errs dim32 PT eq_refl (fit_dim32 L)); [lia|lia|lra|lra|exact dim_top|exact dim_le|].
  intros j k D HK HD d w n I Hn. pose proof (depth_le n d Hn) as DN.
  destruct j as [|[|[|[|[|[|[|[|[|j]]]]]]]]]; cbn [nth_error kinds dim_errs nth dim32] in *; [..|destruct j; discriminate]; injection HK as <-; injection HD as <-; cbn [In] in I;
  repeat (destruct I as [I|I]; [injection I as <- <-|]); try contradiction.
  all: match goal with
    | |- tgt_far _ _ _ _ _ _ _ (kenc KLin) _ => eapply (far_klin 24 128 ltac:(lia) ltac:(lia) L _ LO PZ PN PF _ _ _ _ DN)
    | |- tgt_far _ _ _ _ _ _ _ (kenc (KPow 2.6)) _ => eapply (far_kpow 24 128 ltac:(lia) ltac:(lia) L _ LO PW PZ PN PF E6 ltac:(lia) _ _ _ _ _ 0.0106 DN)
    | |- tgt_far _ _ _ _ _ _ _ (kenc (KPow _)) _ => eapply (far_kpow 24 128 ltac:(lia) ltac:(lia) L _ LO PW PZ PN PF E6 ltac:(lia) _ _ _ _ _ 0.0042 DN)
    | |- tgt_far _ _ _ _ _ _ _ (kenc ?k) _ => eapply (far_kcurve 24 128 ltac:(lia) ltac:(lia) L _ LO PW PZ PN PF k _ _ _ _ Logic.I ltac:(cbn; tauto) DN) end.
  all: cbn [knee_jump]; unfold slack; change (bpow radix2 (- (24))) with (/ 16777216); change (IZR (128 + 24)) with 152; change (depth 16) with 65535%Z; change (depth 15) with 32767%Z; change (depth 13) with 8191%Z; change (depth 11) with 2047%Z; change (depth 8) with 255%Z; change (depth 7) with 127%Z.
  all: match goal with |- (_ <= _)%Z => lia | |- In _ _ => cbn; tauto | |- Rpower _ (/ Q2R 2.6) <= _ => apply p3_dim; lra | |- Rpower _ _ <= _ => apply adobe_dim; lra | _ => lra end.
Qed.
Theorem C108_whole_f64 {K : XConst} {KO : XConstOk K} (L : libm f64) : good_powf 53 1024 (l_powf L) -> powf_far 53 1024 (l_powf L) -> powf_ten 53 1024 (l_powf L) -> agree_from 53 1024 L lit64 whole whole64.
Proof.
  intros (PW & PZ & PN) PF PT. assert (E6 : IZR (1024 + 53) * bpow radix2 (- (53)) <= / 10000) by (change (bpow radix2 (- (53))) with (/ 9007199254740992); change (IZR (1024 + 53)) with 1077; lra). pose proof (litd_ok 53 1024 ltac:(lia) ltac:(lia)) as LO.
  apply (from_agree 53 1024 ltac:(lia) ltac:(lia) L _ LO ltac:(vm_compute; reflexivity) whole 317 58 2535 whole_errs whole64 PT eq_refl (fit_whole64 L)); [lia|lia|lra|lra|unfold whole; lia|exact whole_le|].
  intros j k D HK HD d w n I Hn. pose proof (depth_le n d Hn) as DN.
  destruct j as [|[|[|[|[|[|[|[|[|j]]]]]]]]]; cbn [nth_error kinds whole_errs nth whole64] in *; [..|destruct j; discriminate]; injection HK as <-; injection HD as <-; cbn [In] in I;
  repeat (destruct I as [I|I]; [injection I as <- <-|]); try contradiction.
  all: match goal with
    | |- tgt_far _ _ _ _ _ _ _ (kenc KLin) _ => eapply (far_klin 53 1024 ltac:(lia) ltac:(lia) L _ LO PZ PN PF _ _ _ _ DN)
    | |- tgt_far _ _ _ _ _ _ _ (kenc (KPow 2.6)) _ => eapply (far_kpow 53 1024 ltac:(lia) ltac:(lia) L _ LO PW PZ PN PF E6 ltac:(lia) _ _ _ _ _ (/ 32768) DN)
    | |- tgt_far _ _ _ _ _ _ _ (kenc (KPow _)) _ => eapply (far_kpow 53 1024 ltac:(lia) ltac:(lia) L _ LO PW PZ PN PF E6 ltac:(lia) _ _ _ _ _ (/ 131072) DN)
    | |- tgt_far _ _ _ _ _ _ _ (kenc ?k) _ => eapply (far_kcurve 53 1024 ltac:(lia) ltac:(lia) L _ LO PW PZ PN PF k _ _ _ _ Logic.I ltac:(cbn; tauto) DN) end.
  all: cbn [knee_jump]; unfold slack; change (bpow radix2 (- (53))) with (/ 9007199254740992); change (IZR (1024 + 53)) with 1077; change (depth 16) with 65535%Z; change (depth 15) with 32767%Z; change (depth 13) with 8191%Z; change (depth 11) with 2047%Z; change (depth 8) with 255%Z; change (depth 7) with 127%Z.
  all: match goal with |- (_ <= _)%Z => lia | |- In _ _ => cbn; tauto | |- Rpower _ (/ Q2R 2.6) <= _ => apply p3_whole64; lra | |- Rpower _ _ <= _ => apply adobe_whole64; lra | _ => lra end.
Qed.
(* a powf as assumed exists *)
Lemma full_far (p e : Z) {Hp : Prec_gt_0 p} {He : Prec_lt_emax p e} : (24 <= p)%Z -> (128 <= e)%Z -> powf_far p e (full_pow p e).
Proof.
  intros P5 E5 x y Fx Fy X Y. unfold full_pow, rounded_pow. rewrite Rlt_bool_false, Rlt_bool_true by lra.
  assert (B : 1 <= Rpower (B2R x) (B2R y) <= 400).
  { split; [rewrite <- (Rpower_O (B2R x)) at 1 by lra; destruct (Rle_lt_or_eq_dec 1 (B2R x) (proj1 X)) as [D|D]; [apply Rle_Rpower; lra|rewrite <- D; unfold Rpower; rewrite ln_1, !Rmult_0_r; right; reflexivity]|].
    apply Rle_trans with (Rpower 400 (B2R y)); [apply Rle_Rpower_l; lra|]. rewrite <- (Rpower_1 400) at 2 by lra. apply Rle_Rpower; lra. }
  pose proof (tiny_le e E5) as [T0 T].
  destruct (nearest_ok p e (Rpower (B2R x) (B2R y))) as [F V]; [apply (rnd_below p e P5 E5); lra|]. split; [exact F|]. rewrite V. pose proof (CurveProofs.u24 p P5).
  eapply rel_weaken; [apply (rnd_rel p e); lra|lra|lra].
Qed.
(* the darkest codes, with any library: code 24 of 255 is the first that is not black in sRGB *)
Example C108_dark_example (L : libm f32) : @rgb_to_rgb _ (f32_ops L) _ (@rgb_to_u8 _ (f32_ops L)) (@ALEXA_WIDE_GAMUT _ (f32_ops L)) (@SRGB _ (f32_ops L)) (map (@rgb_of_u8 _ (f32_ops L)) [Rgb 0 0 0; Rgb 23 23 23; Rgb 24 24 24; Rgb 25 24 24]%Z) (map (fun _ => Rgb 9 9 9) [0; 0; 0; 0])%Z
  = Ret (4%nat, [Rgb 0 0 0; Rgb 0 0 0; Rgb 1 1 1; Rgb 5 1 1]%Z).
Proof. vm_compute. reflexivity. Qed.
(* a pixel with full red, one of scene white and one of black, written as eight-bit sRGB *)
Example C108_example : exists L : libm f32, good_powf 24 128 (l_powf L) /\ powf_far 24 128 (l_powf L) /\ powf_ten 24 128 (l_powf L) /\
  let px := [Rgb 1023 300 95; Rgb 583 583 583; Rgb 0 95 1]%Z in exists c0 c1 c2 d0 d1 d2,
    @rgb_to_rgb _ (f32_ops L) _ (@rgb_to_uint _ (f32_ops L) 255) (@ALEXA_WIDE_GAMUT _ (f32_ops L)) (@SRGB _ (f32_ops L)) (map (@rgb_of_uint _ (f32_ops L) 1023) px) px = Ret (3%nat, [c0; c1; c2]) /\
    @rgb_to_rgb _ (@xr_ops f32_const) _ (@rgb_to_uint _ (@xr_ops f32_const) 255) (@ALEXA_WIDE_GAMUT _ (@xr_ops f32_const)) (@SRGB _ (@xr_ops f32_const)) (map (@rgb_of_uint _ (@xr_ops f32_const) 1023) px) px = Ret (3%nat, [d0; d1; d2]) /\ close 2 c0 d0 /\ close 2 c1 d1 /\ close 2 c2 d2.
Proof.
  set (L := log_libm 24 128). pose proof (full_pow_ok 24 128 ltac:(lia) ltac:(lia) : good_powf 24 128 (l_powf L)) as PW. pose proof (full_far 24 128 ltac:(lia) ltac:(lia) : powf_far 24 128 (l_powf L)) as PF. pose proof (full_ten 24 128 ltac:(lia) ltac:(lia) : powf_ten 24 128 (l_powf L)) as PT.
  exists L. repeat (split; [assumption|]). intro px. destruct (@C108_whole_f32 f32_const f32_const_ok L PW PF PT 0%nat ltac:(lia)) as (s & s' & A & A' & H).
  assert (SO : forall (T : Type) (x y : T), Some (Ret x) = Some (Ret y) -> x = y) by (intros T x y [= E]; exact E). apply SO in A, A'. subst s s'.
  destruct (H 10%Z 8%Z 8%Z 2%Z ltac:(lia) (or_intror (or_introl eq_refl)) ltac:(lia) px px px) as (out & out' & H1 & H2 & H3); [unfold px, whole; repeat constructor; cbn; lia|reflexivity|reflexivity|].
  assert (LO : length out = 3%nat).
  { unfold rgb_to_rgb in H1. destruct (@rgb_to_rgb_matrix _ _ _ _) as [m| |]; try discriminate H1. cbn [obind map rgb_to_rgb_loop px] in H1. injection H1 as <-. reflexivity. }
  destruct out as [|c0 [|c1 [|c2 [|]]]]; try discriminate LO.
  inversion H3 as [|? d0 ? k0 X0 F0 E0 E1]. inversion F0 as [|? d1 ? k1 X1 F1 E2 E3]. inversion F1 as [|? d2 ? k2 X2 F2 E4 E5]. inversion F2. subst. exists c0, c1, c2, d0, d1, d2. split; [exact H1|]. split; [exact H2|]. split; [exact X0|]. split; [exact X1|exact X2].
Qed.
Print Assumptions C108_whole_f32.
Print Assumptions C108_dim_f32.
Print Assumptions C108_whole_f64.
