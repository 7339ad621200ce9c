(* C115: colour spaces built from primaries in floating point *)
From Coq Require Import Reals ZArith QArith Qreals Lra Lia Bool List.
From Flocq Require Import Core BinarySingleNaN.
From Verif Require Import Outcome RealOps MathModel ColorModel SpaceModel XReal SpecLin MatProofs AdaptProofs SpaceProofs FloatInst FloatProofs ErrProofs CurveProofs PropDaylight PropCat.
Import ListNotations.
Open Scope R_scope.
Local Notation f64 := (binary_float 53 1024).
Local Notation f32 := (binary_float 24 128).

(* XYZ to RGB by cross products: each row vanishes on the two other primaries and is one on the white *)
Definition crossv (g b : vec) : vec := (v1 g * v2 b - v2 g * v1 b, v2 g * v0 b - v0 g * v2 b, v0 g * v1 b - v1 g * v0 b).
Definition dotv (p q : vec) : R := v0 p * v0 q + v1 p * v1 q + v2 p * v2 q.
Definition rows (p q r : vec) : RM := M3 (v0 p) (v1 p) (v2 p) (v0 q) (v1 q) (v2 q) (v0 r) (v1 r) (v2 r).
Definition weight (g b w : vec) : R := dotv (crossv (chroma g) (chroma b)) (white1 w).
Definition row_of (g b w : vec) : vec := vscale (/ weight g b w) (crossv (chroma g) (chroma b)).
Definition exact_build (r g b w : vec) : RM := rows (row_of g b w) (row_of b r w) (row_of r g w).
Lemma row_white g b w : weight g b w <> 0 -> dotv (row_of g b w) (white1 w) = 1.
Proof.
  intro H. unfold row_of. set (k := weight g b w) in *. assert (E : dotv (vscale (/ k) (crossv (chroma g) (chroma b))) (white1 w) = / k * weight g b w).
  { unfold weight. destruct (crossv _ _) as [[? ?] ?], (white1 w) as [[? ?] ?]. unfold dotv, vscale, v0, v1, v2. cbn [fst snd]. ring. } rewrite E. fold k. field. exact H.
Qed.
Lemma row_first g b w : dotv (row_of g b w) (chroma g) = 0.
Proof. unfold row_of. destruct (chroma g) as [[? ?] ?], (chroma b) as [[? ?] ?]. unfold dotv, vscale, crossv, v0, v1, v2. cbn [fst snd]. ring. Qed.
Lemma row_second g b w : dotv (row_of g b w) (chroma b) = 0.
Proof. unfold row_of. destruct (chroma g) as [[? ?] ?], (chroma b) as [[? ?] ?]. unfold dotv, vscale, crossv, v0, v1, v2. cbn [fst snd]. ring. Qed.
Lemma rows_app p q r v : mapp (rows p q r) v = (dotv p v, dotv q v, dotv r v).
Proof. destruct v as [[? ?] ?]. reflexivity. Qed.

Section Exact.
Context {K : XConst} {KO : XConstOk K}.
Lemma build_rows r g b w : v1 w <> 0 -> weight g b w <> 0 -> weight b r w <> 0 -> weight r g w <> 0 ->
  build_xyz_to_rgb_matrix (FinXyy r) (FinXyy g) (FinXyy b) (FinXyy w) = FinM (exact_build r g b w).
Proof.
  destruct r as [[xr yr] Yr], g as [[xg yg] Yg], b as [[xb yb] Yb], w as [[xw yw] Yw]. unfold exact_build, row_of, weight, dotv, rows, white1, chroma, crossv, vscale, v0, v1, v2. cbn [fst snd]. intros Hw Wr Wg Wb.
  unfold build_xyz_to_rgb_matrix, FinXyy. cbn [xyy_x xyy_y]. xs. rewrite !(x_div _ yw) by exact Hw. assert (O1 : Q2R 1.0 = 1) by (unfold Q2R; cbn; lra). rewrite O1.
  rewrite !x_div; [|clear - Wr Wg Wb Hw; intro E; first [solve [apply Wr; rewrite <- E; field; exact Hw]|solve [apply Wg; rewrite <- E; field; exact Hw]|solve [apply Wb; rewrite <- E; field; exact Hw]]..].
  unfold FinM. f_equal; apply (f_equal Fin); unfold Rdiv at 1; rewrite Rmult_comm; f_equal; try ring; f_equal; field; exact Hw.
Qed.
End Exact.

Section Fmt.
Context (prec emax : Z) {Hp : Prec_gt_0 prec} {He : Prec_lt_emax prec emax}.
Notation fl := (binary_float prec emax).
Notation u := (bpow radix2 (- prec)).
Notation eta := (bpow radix2 (2 - emax - prec)).
Context (P5 : (24 <= prec)%Z) (E5 : (128 <= emax)%Z).
Context (L : libm fl) (lit : Q -> fl) (L1 : lit_exact prec emax lit 1.0%Q 1).
Notation ops := (b_ops prec emax L lit).
Notation ap := (ap prec emax).
Notation bm := (Bmult mode_NE).
Notation bs := (Bminus mode_NE).
Notation bp := (Bplus mode_NE).
Notation bd := (Bdiv mode_NE).

Lemma ap_sub ep p P eq q Q' s : ap ep p P -> ap eq q Q' -> Rabs (P - Q') <= s -> 0 <= ep <= 1000000 -> 0 <= eq <= 1000000 -> s <= 1000000 -> ap (ep + eq + (s + (ep + eq) / 10000000)) (bs p q) (P - Q').
Proof.
  intros [FP HP] [FQ HQ] S' EP EQ SB. destruct (CurveProofs.u24 prec P5) as [U0 U]. pose proof vast_val as VV. pose proof (Rabs_pos (P - Q')) as S0.
  assert (EU : (ep + eq) * u <= (ep + eq) * / 10000000) by (apply Rmult_le_compat_l; lra).
  assert (M : Rabs (B2R p - B2R q) <= s + (ep + eq) / 10000000). { replace (B2R p - B2R q) with ((P - Q') + ((B2R p - P) - (B2R q - Q'))) by ring. eapply Rle_trans; [apply Rabs_triang|]. assert (Rabs ((B2R p - P) - (B2R q - Q')) <= (ep + eq) * u) by (apply Rabs_le; apply Rabs_le_inv in HP, HQ; lra). lra. }
  destruct (gminus prec emax P5 E5 p q FP FQ) as [F H]; [lra|]. split; [exact F|]. apply (Rmult_le_compat_l u) in M; [|lra].
  apply Rabs_le_inv in H, HP, HQ. apply Rabs_le. lra.
Qed.
Lemma ap_quot ed d D es s S' lo q : ap ed d D -> ap es s S' -> 0 < lo <= Rabs S' -> Rabs (D / S') <= q -> 0 <= ed -> 0 <= es -> 1000 * es * u <= lo -> (ed + q * es) / lo <= 1000000000 -> q <= 1000000 -> ap (1.003 * ((ed + q * es) / lo) + q + 0.001) (bd d s) (D / S').
Proof.
  intros [FD HD] [FS HS] LO QB ED ES G HB QM. destruct (CurveProofs.u24 prec P5) as [U0 U]. destruct (CurveProofs.eta_le prec emax E5) as [T0 T]. pose proof vast_val as VV.
  assert (SN : S' <> 0) by (intro Z0; rewrite Z0, Rabs_R0 in LO; lra). assert (Q0 : 0 <= q) by (pose proof (Rabs_pos (D / S')); lra). set (r := D / S') in *. assert (DR : D = r * S') by (unfold r; field; exact SN).
  assert (SA : 0.999 * lo <= Rabs (B2R s)). { assert (Rabs S' <= Rabs (B2R s) + Rabs (B2R s - S')). { replace S' with (B2R s + - (B2R s - S')) at 1 by ring. eapply Rle_trans; [apply Rabs_triang|]. rewrite Rabs_Ropp. lra. } lra. }
  assert (BN : B2R s <> 0) by (intro Z0; rewrite Z0, Rabs_R0 in SA; lra). set (H0 := (ed + q * es) / lo) in *. assert (QE : 0 <= q * es) by (apply Rmult_le_pos; assumption). assert (HL : H0 * lo = ed + q * es) by (unfold H0; field; lra). assert (HP0 : 0 <= H0) by (unfold H0; apply Rmult_le_pos; [lra|apply Rlt_le, Rinv_0_lt_compat; lra]).
  assert (E : Rabs (B2R d / B2R s - r) <= 1.0011 * H0 * u).
  { apply (Rmult_le_reg_r (Rabs (B2R s))); [lra|]. rewrite <- Rabs_mult. replace ((B2R d / B2R s - r) * B2R s) with ((B2R d - D) - r * (B2R s - S')) by (rewrite DR; field; exact BN).
    eapply Rle_trans; [apply Rabs_triang|]. rewrite Rabs_Ropp, Rabs_mult. assert (Rabs r * Rabs (B2R s - S') <= q * (es * u)) by (apply Rmult_le_compat; try lra; apply Rabs_pos).
    assert (A1 : 1.0011 * H0 * u * (0.999 * lo) <= 1.0011 * H0 * u * Rabs (B2R s)) by (apply Rmult_le_compat_l; [apply Rmult_le_pos; lra|exact SA]). replace (1.0011 * H0 * u * (0.999 * lo)) with (1.0011 * 0.999 * (H0 * lo * u)) in A1 by ring. rewrite HL in A1. assert (0 <= (ed + q * es) * u) by (apply Rmult_le_pos; lra). lra. }
  assert (HU : H0 * u <= H0 * 0.0000001) by (apply Rmult_le_compat_l; lra). assert (HU0 : 0 <= H0 * u) by (apply Rmult_le_pos; lra).
  assert (M : Rabs (B2R d / B2R s) <= q + 1.0011 * H0 * u). { replace (B2R d / B2R s) with ((B2R d / B2R s - r) + r) by ring. eapply Rle_trans; [apply Rabs_triang|]. lra. }
  destruct (gdiv prec emax P5 E5 d s FD BN) as [F W]; [lra|]. split; [exact F|]. apply (Rmult_le_compat_l u) in M; [|lra]. assert (u * (H0 * u) <= 0.0000001 * (H0 * u)) by (apply Rmult_le_compat_r; lra).
  replace (B2R (bd d s) - r) with ((B2R (bd d s) - B2R d / B2R s) + (B2R d / B2R s - r)) by ring. eapply Rle_trans; [apply Rabs_triang|]. lra.
Qed.

(* chromaticities: x, y and 1 - x - y between -1.1 and 1.1 *)
Definition chrom (c : xyy fl) : Prop := is_finite (xyy_x c) = true /\ is_finite (xyy_y c) = true /\ Rabs (B2R (xyy_x c)) <= 1.1 /\ Rabs (B2R (xyy_y c)) <= 1.1 /\ Rabs (1 - B2R (xyy_x c) - B2R (xyy_y c)) <= 1.1.
Definition rv (c : xyy fl) : vec := (B2R (xyy_x c), B2R (xyy_y c), B2R (xyy_Y c)).
Definition fz (c : xyy fl) : fl := bs (lit 1.0%Q) (bp (xyy_x c) (xyy_y c)).
Definition part (x : fl) (X : R) : Prop := ap 3.201 x X /\ Rabs X <= 1.1.
Definition sharp (x : fl) (X : R) : Prop := ap 0 x X /\ Rabs X <= 1.1.
Lemma sharp_part x X : sharp x X -> part x X.
Proof. intros [A B]. split; [apply (ap_weak prec emax _ _ _ _ A); lra|exact B]. Qed.
Lemma chrom_parts c : chrom c -> sharp (xyy_x c) (v0 (chroma (rv c))) /\ sharp (xyy_y c) (v1 (chroma (rv c))) /\ part (fz c) (v2 (chroma (rv c))).
Proof.
  intros (Fx & Fy & Hx & Hy & Hz). unfold chroma, rv, v0, v1, v2. cbn [fst snd]. destruct L1 as [FL VL]. destruct (CurveProofs.u24 prec P5) as [U0 U]. pose proof vast_val as VV.
  split; [split; [apply ap_self; exact Fx|exact Hx]|]. split; [split; [apply ap_self; exact Fy|exact Hy]|]. split; [|exact Hz].
  assert (S : Rabs (B2R (xyy_x c) + B2R (xyy_y c)) <= 2.1) by (apply Rabs_le; apply Rabs_le_inv in Hz; lra). destruct (gplus prec emax P5 E5 _ _ Fx Fy) as [F H]; [lra|].
  assert (A : ap 2.1 (bp (xyy_x c) (xyy_y c)) (B2R (xyy_x c) + B2R (xyy_y c))) by (split; [exact F|]; apply (Rmult_le_compat_l u) in S; lra).
  assert (O : ap 0 (lit 1.0%Q) 1) by (split; [exact FL|]; rewrite VL, Rminus_eq_0, Rabs_R0; lra). replace (1 - B2R (xyy_x c) - B2R (xyy_y c)) with (1 - (B2R (xyy_x c) + B2R (xyy_y c))) in * by ring.
  apply (ap_weak prec emax (0 + 2.1 + (1.1 + (0 + 2.1) / 10000000))); [|lra]. apply ap_sub; try assumption; lra.
Qed.
Lemma cof_ap a A b B' c C d D : sharp a A -> part b B' -> sharp c C -> part d D -> ap 11.9 (bs (bm a b) (bm c d)) (A * B' - C * D) /\ Rabs (A * B' - C * D) <= 2.42.
Proof.
  intros [HA BA] [HB BB] [HC BC] [HD BD]. destruct (ap_mul prec emax P5 E5 _ _ _ _ _ _ _ _ HA BA HB BB) as [X X']; [lra|lra|lra|lra|]. destruct (ap_mul prec emax P5 E5 _ _ _ _ _ _ _ _ HC BC HD BD) as [Y Y']; [lra|lra|lra|lra|].
  assert (S : Rabs (A * B' - C * D) <= 2.42) by (apply Rabs_le; apply Rabs_le_inv in X', Y'; lra). split; [|exact S]. set (t := te 0 1.1 3.201 1.1) in *. assert (TB : 0 <= t <= 4.735) by (unfold t, te; lra). clearbody t.
  apply (ap_weak prec emax (t + t + (2.42 + (t + t) / 10000000))); [|lra]. apply ap_sub; try assumption; lra.
Qed.
Lemma weight_ap a A b B' c C x X y Y z Z w : ap 11.9 a A -> Rabs A <= 2.42 -> ap 11.9 b B' -> Rabs B' <= 2.42 -> ap 11.9 c C -> Rabs C <= 2.42 -> part x X -> part y Y -> part z Z -> is_finite w = true -> 0.2 <= B2R w ->
  ap 461 (bd (bp (bp (bm a x) (bm b y)) (bm c z)) w) ((A * X + B' * Y + C * Z) / B2R w).
Proof.
  intros HA BA HB BB HC BC [HX BX] [HY BY] [HZ BZ] FW WB. destruct (ap_mul prec emax P5 E5 _ _ _ _ _ _ _ _ HA BA HX BX) as [P P']; [lra|lra|lra|lra|]. destruct (ap_mul prec emax P5 E5 _ _ _ _ _ _ _ _ HB BB HY BY) as [Q' Q'']; [lra|lra|lra|lra|]. destruct (ap_mul prec emax P5 E5 _ _ _ _ _ _ _ _ HC BC HZ BZ) as [R' R'']; [lra|lra|lra|lra|].
  set (t := te 11.9 2.42 3.201 1.1) in *. assert (TB : 0 <= t <= 23.51) by (unfold t, te; lra). clearbody t. destruct (ap_add prec emax P5 E5 _ _ _ _ _ _ _ _ P P' Q' Q'') as [S1 S1']; [lra|lra|lra|lra|].
  apply (ap_weak prec emax _ 52.36) in S1; [|lra]. destruct (ap_add prec emax P5 E5 _ _ _ _ _ _ _ _ S1 S1' R' R'') as [S2 S2']; [lra|lra|lra|lra|]. apply (ap_weak prec emax _ 83.9) in S2; [|lra].
  assert (IW : 0 < / B2R w <= 5) by (split; [apply Rinv_0_lt_compat; lra|]; apply (Rmult_le_reg_r (B2R w)); [lra|]; rewrite Rinv_l by lra; lra).
  assert (QB : Rabs ((A * X + B' * Y + C * Z) / B2R w) <= 40). { unfold Rdiv. rewrite Rabs_mult, (Rabs_pos_eq (/ B2R w)) by lra. assert (Rabs (A * X + B' * Y + C * Z) * / B2R w <= 7.99 * 5) by (apply Rmult_le_compat; try lra; apply Rabs_pos). lra. }
  apply (ap_weak prec emax (1.003 * ((83.9 + 40 * 0) / 0.2) + 40 + 0.001)); [|lra]. apply ap_quot; try lra; try assumption; [apply ap_self; exact FW|rewrite Rabs_pos_eq; lra].
Qed.

Section Row.
Context (g b w : xyy fl) (Cg : chrom g) (Cb : chrom b) (Cw : chrom w) (Ww : 0.2 <= B2R (xyy_y w)).
Notation f0 := (bs (bm (xyy_y g) (fz b)) (bm (xyy_y b) (fz g))).
Notation f1 := (bs (bm (xyy_x b) (fz g)) (bm (xyy_x g) (fz b))).
Notation f2 := (bs (bm (xyy_x g) (xyy_y b)) (bm (xyy_x b) (xyy_y g))).
Notation fw := (bd (bp (bp (bm f0 (xyy_x w)) (bm f1 (xyy_y w))) (bm f2 (fz w))) (xyy_y w)).
Notation C := (crossv (chroma (rv g)) (chroma (rv b))).
Lemma cross_ap : (ap 11.9 f0 (v0 C) /\ Rabs (v0 C) <= 2.42) /\ (ap 11.9 f1 (v1 C) /\ Rabs (v1 C) <= 2.42) /\ (ap 11.9 f2 (v2 C) /\ Rabs (v2 C) <= 2.42).
Proof.
  destruct (chrom_parts g Cg) as (X & Y & Z). destruct (chrom_parts b Cb) as (X' & Y' & Z'). unfold crossv. set (G := chroma (rv g)) in *. set (B' := chroma (rv b)) in *. clearbody G B'.
  assert (E0 : v0 (v1 G * v2 B' - v2 G * v1 B', v2 G * v0 B' - v0 G * v2 B', v0 G * v1 B' - v1 G * v0 B') = v1 G * v2 B' - v1 B' * v2 G) by (unfold v0, v1, v2; cbn [fst snd]; ring).
  assert (E1 : v1 (v1 G * v2 B' - v2 G * v1 B', v2 G * v0 B' - v0 G * v2 B', v0 G * v1 B' - v1 G * v0 B') = v0 B' * v2 G - v0 G * v2 B') by (unfold v0, v1, v2; cbn [fst snd]; ring).
  assert (E2 : v2 (v1 G * v2 B' - v2 G * v1 B', v2 G * v0 B' - v0 G * v2 B', v0 G * v1 B' - v1 G * v0 B') = v0 G * v1 B' - v0 B' * v1 G) by (unfold v0, v1, v2; cbn [fst snd]; ring).
  rewrite E0, E1, E2. split; [|split]; apply cof_ap; try assumption; apply sharp_part; assumption.
Qed.
Lemma row_ap mm del : 461000 * u <= del -> 0 <= mm <= 1000 -> del <= Rabs (weight (rv g) (rv b) (rv w)) -> (12 + 463 * mm) / del <= 1000000000 -> Rabs (v0 (row_of (rv g) (rv b) (rv w))) <= mm -> Rabs (v1 (row_of (rv g) (rv b) (rv w))) <= mm -> Rabs (v2 (row_of (rv g) (rv b) (rv w))) <= mm ->
  ap ((12 + 463 * mm) / del + mm + 0.001) (bd f0 fw) (v0 (row_of (rv g) (rv b) (rv w))) /\ ap ((12 + 463 * mm) / del + mm + 0.001) (bd f1 fw) (v1 (row_of (rv g) (rv b) (rv w))) /\ ap ((12 + 463 * mm) / del + mm + 0.001) (bd f2 fw) (v2 (row_of (rv g) (rv b) (rv w))).
Proof.
  intros DL MB DW HB M0 M1 M2. destruct cross_ap as ([A0 B0] & [A1 B1] & [A2 B2]). destruct (chrom_parts w Cw) as (X & Y & Z). apply sharp_part in X, Y. pose proof (weight_ap _ _ _ _ _ _ _ _ _ _ _ _ (xyy_y w) A0 B0 A1 B1 A2 B2 X Y Z (proj1 (proj2 Cw)) Ww) as HW.
  assert (EW : (v0 C * v0 (chroma (rv w)) + v1 C * v1 (chroma (rv w)) + v2 C * v2 (chroma (rv w))) / B2R (xyy_y w) = weight (rv g) (rv b) (rv w)).
  { unfold weight, dotv. set (c := C). clearbody c. unfold chroma, white1, rv, v0, v1, v2. cbn [fst snd]. field. lra. }
  rewrite EW in HW. set (wt := weight _ _ _) in *. destruct (CurveProofs.u24 prec P5) as [U0 U]. assert (D0 : 0 < del) by lra. assert (WN : wt <> 0) by (intro Z0; rewrite Z0, Rabs_R0 in DW; lra).
  unfold row_of in *. fold wt in M0, M1, M2 |- *. set (c := C) in *. clearbody c wt.
  assert (I0 : 0 < / del) by (apply Rinv_0_lt_compat; exact D0). assert (HH : (11.9 + mm * 461) / del <= (12 + 463 * mm) / del) by (apply Rmult_le_compat_r; lra).
  assert (H3 : 1.003 * ((11.9 + mm * 461) / del) <= (12 + 463 * mm) / del). { unfold Rdiv. rewrite <- Rmult_assoc. apply Rmult_le_compat_r; lra. }
  assert (ST : forall (f : fl) V, ap 11.9 f V -> Rabs (/ wt * V) <= mm -> ap ((12 + 463 * mm) / del + mm + 0.001) (bd f fw) (/ wt * V)).
  { intros f V HV HM. replace (/ wt * V) with (V / wt) in * by (unfold Rdiv; ring). apply (ap_weak prec emax (1.003 * ((11.9 + mm * 461) / del) + mm + 0.001)); [|lra]. apply ap_quot; try assumption; lra. }
  destruct c as [[c0 c1] c2]. unfold vscale, v0, v1, v2 in *. cbn [fst snd] in *. split; [|split]; apply ST; assumption.
Qed.
End Row.

Definition good_build {M : RealOps fl} : Prop := forall del mm r g b w, chrom r -> chrom g -> chrom b -> chrom w -> 0.2 <= B2R (xyy_y w) ->
  0.0275 <= del -> del <= Rabs (weight (rv g) (rv b) (rv w)) -> del <= Rabs (weight (rv b) (rv r) (rv w)) -> del <= Rabs (weight (rv r) (rv g) (rv w)) ->
  0 <= mm <= 1000 -> all9 (fun x => Rabs x <= mm) (exact_build (rv r) (rv g) (rv b) (rv w)) ->
  near9 prec emax ((12 + 463 * mm) / del + mm + 0.001) (build_xyz_to_rgb_matrix r g b w) (exact_build (rv r) (rv g) (rv b) (rv w)).
Lemma good_build_ok : @good_build ops.
Proof.
  intros del mm r g b w Cr Cg Cb Cw Ww DL Dr Dg Db MM EM. destruct (CurveProofs.u24 prec P5) as [U0 U].
  assert (U' : 461000 * u <= del) by (pose proof (bpow_le radix2 (- prec) (-24) ltac:(lia)) as BL; change (bpow radix2 (-24)) with (/ 16777216) in BL; lra).
  assert (HB : (12 + 463 * mm) / del <= 1000000000). { assert (I : / del <= 40) by (apply (Rmult_le_reg_r del); [lra|]; rewrite Rinv_l by lra; lra). assert (0 < / del) by (apply Rinv_0_lt_compat; lra). assert ((12 + 463 * mm) * / del <= 463012 * 40) by (apply Rmult_le_compat; lra). unfold Rdiv. lra. }
  unfold exact_build, rows in EM. cbn [all9] in EM. destruct EM as (A0 & A1 & A2 & B0 & B1 & B2 & C0 & C1 & C2).
  destruct (row_ap g b w Cg Cb Cw Ww mm del U' MM Dr HB A0 A1 A2) as (R0 & R1 & R2). destruct (row_ap b r w Cb Cr Cw Ww mm del U' MM Dg HB B0 B1 B2) as (G0 & G1 & G2). destruct (row_ap r g w Cr Cg Cw Ww mm del U' MM Db HB C0 C1 C2) as (S0 & S1 & S2).
  exact (conj R0 (conj R1 (conj R2 (conj G0 (conj G1 (conj G2 (conj S0 (conj S1 S2)))))))).
Qed.
End Fmt.

Theorem C115_exact : forall r g b w : vec, v1 w <> 0 -> weight g b w <> 0 -> weight b r w <> 0 -> weight r g w <> 0 ->
  (forall (K : XConst), XConstOk K -> build_xyz_to_rgb_matrix (FinXyy r) (FinXyy g) (FinXyy b) (FinXyy w) = FinM (exact_build r g b w)) /\
  mapp (exact_build r g b w) (white1 w) = (1, 1, 1) /\
  (exists p q s, mapp (exact_build r g b w) (chroma r) = (p, 0, 0) /\ mapp (exact_build r g b w) (chroma g) = (0, q, 0) /\ mapp (exact_build r g b w) (chroma b) = (0, 0, s) /\
    (mdet (mcols (chroma r) (chroma g) (chroma b)) <> 0 -> p <> 0 /\ q <> 0 /\ s <> 0)).
Proof.
  intros r g b w Hw Wr Wg Wb. split; [intros K KO; apply build_rows; assumption|]. unfold exact_build. rewrite !rows_app, !row_white, !row_first, !row_second by assumption. split; [reflexivity|].
  exists (dotv (row_of g b w) (chroma r)), (dotv (row_of b r w) (chroma g)), (dotv (row_of r g w) (chroma b)). split; [reflexivity|]. split; [reflexivity|]. split; [reflexivity|].
  assert (E : forall k p q s, dotv (vscale k (crossv p q)) s = k * dotv (crossv p q) s) by (intros k [[? ?] ?] [[? ?] ?] [[? ?] ?]; unfold dotv, vscale, crossv, v0, v1, v2; cbn [fst snd]; ring).
  assert (D1 : forall p q s, dotv (crossv q s) p = mdet (mcols p q s)) by (intros [[? ?] ?] [[? ?] ?] [[? ?] ?]; unfold dotv, crossv, mcols, v0, v1, v2; cbn [fst snd mdet]; ring).
  assert (D2 : forall p q s, mdet (mcols q s p) = mdet (mcols p q s)) by (intros [[? ?] ?] [[? ?] ?] [[? ?] ?]; unfold mcols, v0, v1, v2; cbn [fst snd mdet]; ring).
  intro N. unfold row_of. rewrite !E, !D1. rewrite (D2 (chroma b) (chroma r)) at 1. pose proof (D2 (chroma r) (chroma g) (chroma b)) as D3. pose proof (D2 (chroma g) (chroma b) (chroma r)) as D4. pose proof (D2 (chroma b) (chroma r) (chroma g)) as D5. repeat split; apply Rmult_integral_contrapositive; (split; [apply Rinv_neq_0_compat; assumption|congruence]).
Qed.
Print Assumptions C115_exact.

Theorem C115_build_f32 : forall L : libm f32, @good_build 24 128 (f32_ops L).
Proof. intro L. apply good_build_ok; [lia|lia|by_sf]. Qed.
Print Assumptions C115_build_f32.
Theorem C115_build_f64 : forall L : libm f64, @good_build 53 1024 (f64_ops L).
Proof. intro L. apply good_build_ok; [lia|lia|by_sf]. Qed.
Print Assumptions C115_build_f64.

(* the sRGB primaries rounded to f32: weights at least 0.14, entries at most 3.25, so entries within 11000 half-units; the first is 3.24097 *)
Local Notation single q := (f64_to_f32 (b_of_Q 53 1024 q)).
Local Notation at2 x y := (Xyy (single x) (single y) (single 1.0%Q)).
Definition ex_r : xyy f32 := at2 0.64%Q 0.33%Q.
Definition ex_g : xyy f32 := at2 0.30%Q 0.60%Q.
Definition ex_b : xyy f32 := at2 0.15%Q 0.06%Q.
Definition ex_w : xyy f32 := at2 0.3127%Q 0.3290%Q.
Lemma over_le k c m : 0 < k -> Rabs c <= m * k -> Rabs (/ k * c) <= m.
Proof. intros K0 H. rewrite Rabs_mult, Rabs_pos_eq by (apply Rlt_le, Rinv_0_lt_compat; exact K0). apply (Rmult_le_reg_l k); [exact K0|]. rewrite <- Rmult_assoc, Rinv_r by lra. lra. Qed.
Example C115_example : chrom 24 128 ex_r /\ chrom 24 128 ex_g /\ chrom 24 128 ex_b /\ chrom 24 128 ex_w /\ 0.2 <= B2R (xyy_y ex_w) /\
  0.14 <= Rabs (weight (rv 24 128 ex_g) (rv 24 128 ex_b) (rv 24 128 ex_w)) /\ 0.14 <= Rabs (weight (rv 24 128 ex_b) (rv 24 128 ex_r) (rv 24 128 ex_w)) /\ 0.14 <= Rabs (weight (rv 24 128 ex_r) (rv 24 128 ex_g) (rv 24 128 ex_w)) /\
  all9 (fun x => Rabs x <= 3.25) (exact_build (rv 24 128 ex_r) (rv 24 128 ex_g) (rv 24 128 ex_b) (rv 24 128 ex_w)) /\
  forall L : libm f32, Rabs (B2R (mx0 (@build_xyz_to_rgb_matrix _ (f32_ops L) ex_r ex_g ex_b ex_w)) - 3.24097) <= 0.001.
Proof.
  assert (V1 : is_finite (single 0.64%Q) = true /\ B2R (single 0.64%Q) = 5368709 / 8388608) by by_sf. assert (V2 : is_finite (single 0.33%Q) = true /\ B2R (single 0.33%Q) = 11072963 / 33554432) by by_sf. assert (V3 : is_finite (single 0.30%Q) = true /\ B2R (single 0.30%Q) = 5033165 / 16777216) by by_sf. assert (V4 : is_finite (single 0.60%Q) = true /\ B2R (single 0.60%Q) = 5033165 / 8388608) by by_sf.
  assert (V5 : is_finite (single 0.15%Q) = true /\ B2R (single 0.15%Q) = 5033165 / 33554432) by by_sf. assert (V6 : is_finite (single 0.06%Q) = true /\ B2R (single 0.06%Q) = 16106127 / 268435456) by by_sf. assert (V7 : is_finite (single 0.3127%Q) = true /\ B2R (single 0.3127%Q) = 10492471 / 33554432) by by_sf. assert (V8 : is_finite (single 0.3290%Q) = true /\ B2R (single 0.3290%Q) = 689963 / 2097152) by by_sf.
  destruct V1 as [F1 V1], V2 as [F2 V2], V3 as [F3 V3], V4 as [F4 V4], V5 as [F5 V5], V6 as [F6 V6], V7 as [F7 V7], V8 as [F8 V8].
  assert (CR : chrom 24 128 ex_r) by (unfold chrom, ex_r; cbn [xyy_x xyy_y]; rewrite V1, V2; repeat split; try assumption; rewrite Rabs_pos_eq; lra).
  assert (CG : chrom 24 128 ex_g) by (unfold chrom, ex_g; cbn [xyy_x xyy_y]; rewrite V3, V4; repeat split; try assumption; rewrite Rabs_pos_eq; lra).
  assert (CB : chrom 24 128 ex_b) by (unfold chrom, ex_b; cbn [xyy_x xyy_y]; rewrite V5, V6; repeat split; try assumption; rewrite Rabs_pos_eq; lra).
  assert (CW : chrom 24 128 ex_w) by (unfold chrom, ex_w; cbn [xyy_x xyy_y]; rewrite V7, V8; repeat split; try assumption; rewrite Rabs_pos_eq; lra).
  assert (YW : 0.2 <= B2R (xyy_y ex_w)) by (unfold ex_w; cbn [xyy_y]; rewrite V8; lra).
  set (q := B2R (single 1.0%Q)). assert (ER : rv 24 128 ex_r = (5368709 / 8388608, 11072963 / 33554432, q)) by (unfold rv, ex_r; cbn [xyy_x xyy_y xyy_Y]; rewrite V1, V2; reflexivity). assert (EG : rv 24 128 ex_g = (5033165 / 16777216, 5033165 / 8388608, q)) by (unfold rv, ex_g; cbn [xyy_x xyy_y xyy_Y]; rewrite V3, V4; reflexivity).
  assert (EB : rv 24 128 ex_b = (5033165 / 33554432, 16106127 / 268435456, q)) by (unfold rv, ex_b; cbn [xyy_x xyy_y xyy_Y]; rewrite V5, V6; reflexivity). assert (EW : rv 24 128 ex_w = (10492471 / 33554432, 689963 / 2097152, q)) by (unfold rv, ex_w; cbn [xyy_x xyy_y xyy_Y]; rewrite V7, V8; reflexivity).
  clearbody q. rewrite ER, EG, EB, EW. set (vr := (5368709 / 8388608, 11072963 / 33554432, q)). set (vg := (5033165 / 16777216, 5033165 / 8388608, q)). set (vb := (5033165 / 33554432, 16106127 / 268435456, q)). set (vw := (10492471 / 33554432, 689963 / 2097152, q)).
  assert (K1 : 0.14 <= weight vg vb vw) by (unfold weight, dotv, crossv, chroma, white1, vg, vb, vw, v0, v1, v2; cbn [fst snd]; lra). assert (K2 : 0.14 <= weight vb vr vw) by (unfold weight, dotv, crossv, chroma, white1, vr, vb, vw, v0, v1, v2; cbn [fst snd]; lra). assert (K3 : 0.14 <= weight vr vg vw) by (unfold weight, dotv, crossv, chroma, white1, vg, vr, vw, v0, v1, v2; cbn [fst snd]; lra).
  assert (W1 : 0.14 <= Rabs (weight vg vb vw)) by (rewrite Rabs_pos_eq; lra). assert (W2 : 0.14 <= Rabs (weight vb vr vw)) by (rewrite Rabs_pos_eq; lra). assert (W3 : 0.14 <= Rabs (weight vr vg vw)) by (rewrite Rabs_pos_eq; lra).
  assert (EM : all9 (fun x => Rabs x <= 3.25) (exact_build vr vg vb vw)).
  { unfold exact_build, rows. cbn [all9]. repeat split; unfold row_of, vscale, v0, v1, v2; cbn [fst snd crossv]; (apply over_le; [lra|]; apply Rabs_le; unfold weight, dotv, crossv, chroma, white1, vr, vg, vb, vw, v0, v1, v2; cbn [fst snd]; lra). }
  repeat (split; [assumption|]). intro L. pose proof (C115_build_f32 L 0.14 3.25 ex_r ex_g ex_b ex_w CR CG CB CW YW ltac:(lra)) as H. rewrite ER, EG, EB, EW in H. fold vr vg vb vw in H. specialize (H W1 W2 W3 ltac:(lra) EM). set (m := build_xyz_to_rgb_matrix _ _ _ _) in *. clearbody m. unfold near9, exact_build, rows in H. destruct m. destruct H as ((_ & H) & _). cbn [MathModel.mx0].
  assert (E : Rabs (v0 (row_of vg vb vw) - 3.24097) <= 0.0001).
  { unfold row_of. replace (v0 (vscale (/ weight vg vb vw) (crossv (chroma vg) (chroma vb))) - 3.24097) with (/ weight vg vb vw * (v0 (crossv (chroma vg) (chroma vb)) - 3.24097 * weight vg vb vw)) by (destruct (crossv _ _) as [[? ?] ?]; unfold vscale, v0; cbn [fst snd]; field; lra).
    apply over_le; [lra|]. apply Rabs_le. unfold weight, dotv, crossv, chroma, white1, vr, vg, vb, vw, v0, v1, v2; cbn [fst snd]; lra. }
  change (bpow radix2 (- (24))) with (/ 16777216) in H. apply Rabs_le_inv in E, H. apply Rabs_le. lra.
Qed.
