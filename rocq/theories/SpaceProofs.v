(* ColorSpaceRGB::new on exact reals *)
From Coq Require Import Reals ZArith QArith Qreals Lra Lia List Bool.
From Verif Require Import Outcome RealOps MathModel ColorModel AdaptModel SpaceModel TransformModel
  XReal SpecLin MatProofs AdaptProofs.
Import ListNotations.
Open Scope R_scope.

(* chromaticity (x, y) as the vector (x, y, 1-x-y); the white with Y = 1 *)
Definition chroma (c : vec) : vec := (v0 c, v1 c, 1 - v0 c - v1 c).
Definition white1 (w : vec) : vec := (v0 w / v1 w, 1, (1 - v0 w - v1 w) / v1 w).
(* matrix with the given columns *)
Definition mcols (r g b : vec) : RM :=
  M3 (v0 r) (v0 g) (v0 b) (v1 r) (v1 g) (v1 b) (v2 r) (v2 g) (v2 b).

(* the white is a r + b g + c b with all three coefficients nonzero, and the primaries are
   independent *)
Definition white_is_mix (red green blue white : vec) (a b c : R) : Prop :=
  v1 white <> 0 /\ a <> 0 /\ b <> 0 /\ c <> 0
  /\ mdet (mcols (chroma red) (chroma green) (chroma blue)) <> 0
  /\ vadd (vadd (vscale a (chroma red)) (vscale b (chroma green))) (vscale c (chroma blue)) = white1 white.

Definition space_fwd (r g b : vec) (a b' c : R) : RM :=   (* XYZ to RGB *)
  mmul (mdiag (/ a) (/ b') (/ c)) (minv (mcols (chroma r) (chroma g) (chroma b))).
Definition space_bwd (r g b : vec) (a b' c : R) : RM :=   (* RGB to XYZ *)
  mcols (vscale a (chroma r)) (vscale b' (chroma g)) (vscale c (chroma b)).

Lemma space_bwd_eq r g b a b' c :
  space_bwd r g b a b' c = mmul (mcols (chroma r) (chroma g) (chroma b)) (mdiag a b' c).
Proof.
  destruct r as [[? ?] ?], g as [[? ?] ?], b as [[? ?] ?].
  unfold space_bwd, mcols, mdiag, chroma, vscale, v0, v1, v2; cbn [fst snd mmul]. f_equal; ring.
Qed.
Lemma mdiag_inv a b c : a <> 0 -> b <> 0 -> c <> 0 ->
  mmul (mdiag a b c) (mdiag (/ a) (/ b) (/ c)) = mone /\ mmul (mdiag (/ a) (/ b) (/ c)) (mdiag a b c) = mone.
Proof. intros. unfold mdiag, mone. cbn. split; f_equal; field; assumption. Qed.

Lemma space_inverse r g b w a b' c : white_is_mix r g b w a b' c ->
  is_inverse (space_bwd r g b a b' c) (space_fwd r g b a b' c).
Proof.
  intros (_ & Ha & Hb & Hc & D & _). rewrite space_bwd_eq. unfold space_fwd.
  destruct (mdiag_inv a b' c Ha Hb Hc) as [E1 E2].
  apply left_is_inverse. rewrite mmul_assoc, <- (mmul_assoc (mdiag a b' c)), E1, mmul_1_l.
  apply minv_r, D.
Qed.
Lemma space_bwd_white r g b w a b' c : white_is_mix r g b w a b' c ->
  mapp (space_bwd r g b a b' c) (1, 1, 1) = white1 w.
Proof.
  intros (_ & _ & _ & _ & _ & E). rewrite <- E. unfold space_bwd, mcols.
  destruct (chroma r) as [[? ?] ?], (chroma g) as [[? ?] ?], (chroma b) as [[? ?] ?].
  unfold v0, v1, v2. cbn. vec_ring.
Qed.
Lemma inverse_app n m v w : is_inverse n m -> mapp n v = w -> mapp m w = v.
Proof. intros [_ E] <-. rewrite <- mapp_mul, E. apply mapp_one. Qed.

Section Space.
Context {K : XConst} {KO : XConstOk K}.

Lemma build_fin red green blue white a b c : white_is_mix red green blue white a b c ->
  build_xyz_to_rgb_matrix (FinXyy red) (FinXyy green) (FinXyy blue) (FinXyy white)
  = FinM (space_fwd red green blue a b c).
Proof.
  destruct red as [[xr yr] Yr], green as [[xg yg] Yg], blue as [[xb yb] Yb], white as [[xw yw] Yw].
  intros (Hw & Ha & Hb & Hc & D & E).
  unfold white1, chroma, v0, v1 in *. cbn [fst snd vadd vscale] in *.
  injection E as E1 E2 E3.
  set (zr := 1 - xr - yr) in *. set (zg := 1 - xg - yg) in *. set (zb := 1 - xb - yb) in *.
  set (zw := 1 - xw - yw) in *.
  set (det := mdet _) in D.
  assert (Det : det = xr * yg * zb + xg * yb * zr + xb * yr * zg - xb * yg * zr - xg * yr * zb - xr * yb * zg) by reflexivity.
  set (rx := yg * zb - yb * zg). set (ry := xb * zg - xg * zb). set (rz := xg * yb - xb * yg).
  set (gx := yb * zr - yr * zb). set (gy := xr * zb - xb * zr). set (gz := xb * yr - xr * yb).
  set (bx := yr * zg - yg * zr). set (by_ := xg * zr - xr * zg). set (bz := xr * yg - xg * yr).
  assert (Rw : (rx * xw + ry * yw + rz * zw) / yw = det * a).
  { transitivity (rx * (xw / yw) + ry * 1 + rz * (zw / yw)); [field; exact Hw|].
    rewrite <- E1, <- E3, <- E2, Det. unfold rx, ry, rz. ring. }
  assert (Gw : (gx * xw + gy * yw + gz * zw) / yw = det * b).
  { transitivity (gx * (xw / yw) + gy * 1 + gz * (zw / yw)); [field; exact Hw|].
    rewrite <- E1, <- E3, <- E2, Det. unfold gx, gy, gz. ring. }
  assert (Bw : (bx * xw + by_ * yw + bz * zw) / yw = det * c).
  { transitivity (bx * (xw / yw) + by_ * 1 + bz * (zw / yw)); [field; exact Hw|].
    rewrite <- E1, <- E3, <- E2, Det. unfold bx, by_, bz. ring. }
  assert (Na : det * a <> 0) by (apply Rmult_integral_contrapositive_currified; assumption).
  assert (Nb : det * b <> 0) by (apply Rmult_integral_contrapositive_currified; assumption).
  assert (Nc : det * c <> 0) by (apply Rmult_integral_contrapositive_currified; assumption).
  unfold build_xyz_to_rgb_matrix, FinXyy. cbn [xyy_x xyy_y]. xs.
  replace (Q2R 1.0) with 1 by (q2r; lra).
  replace (1 - (xr + yr)) with zr by (unfold zr; ring).
  replace (1 - (xg + yg)) with zg by (unfold zg; ring).
  replace (1 - (xb + yb)) with zb by (unfold zb; ring).
  replace (1 - (xw + yw)) with zw by (unfold zw; ring).
  fold rx ry rz gx gy gz bx by_ bz.
  rewrite !(x_div _ yw) by exact Hw. rewrite Rw, Gw, Bw.
  rewrite !(x_div _ (det * a)), !(x_div _ (det * b)), !(x_div _ (det * c)) by assumption.
  unfold space_fwd, chroma, v0, v1. cbn [fst snd]. fold zr zg zb.
  unfold minv. change (mdet _) with det.
  unfold mcols, mdiag, v0, v1, v2. cbn [fst snd madj mscale mmul FinM].
  unfold rx, ry, rz, gx, gy, gz, bx, by_, bz.
  f_equal; apply (f_equal Fin); field; tauto.
Qed.

(* no entry of the RGB to XYZ matrix overflows *)
Definition not_huge (p : RM) : Prop := mall (fun e => Rabs e < / xtiny) p.

Lemma scalable_of_inverse p n : is_inverse n p -> not_huge n -> scalable (mdet p) (madj p).
Proof.
  intros I H. right. pose proof (left_inverse_det _ _ (proj1 I)) as D.
  rewrite (left_inverse_unique _ _ (proj1 I)) in H.
  assert (G : forall x, Rabs (/ mdet p * x) < / xtiny -> Rabs x < Rabs (mdet p) / xtiny).
  { intros x Hx. rewrite Rabs_mult, Rabs_inv in Hx.
    apply (Rmult_lt_reg_l (/ Rabs (mdet p))).
    - apply Rinv_0_lt_compat, Rabs_pos_lt, D.
    - replace (/ Rabs (mdet p) * (Rabs (mdet p) / xtiny)) with (/ xtiny); [exact Hx|].
      field. split; [pose proof (@xtiny_pos K KO); lra | apply Rabs_no_R0, D]. }
  unfold minv, not_huge in H. destruct (madj p) as [s0 s1 s2 s3 s4 s5 s6 s7 s8]. cbn [mscale mall] in *.
  repeat match goal with H : _ /\ _ |- _ => destruct H end.
  repeat split; apply G; assumption.
Qed.

Lemma cs_new_fin red green blue white a b c o e : white_is_mix red green blue white a b c ->
  general_case (space_fwd red green blue a b c) ->
  not_huge (space_bwd red green blue a b c) ->
  cs_new (FinXyy red) (FinXyy green) (FinXyy blue) (FinXyy white) o e
  = Ret (ColorSpace (FinM (space_fwd red green blue a b c)) (FinM (space_bwd red green blue a b c))
           (FinXyy red) (FinXyy green) (FinXyy blue) (FinXyy white) o e).
Proof.
  intros H G N. unfold cs_new. rewrite (build_fin _ _ _ _ _ _ _ H).
  pose proof (space_inverse _ _ _ _ _ _ _ H) as I.
  destruct (inverse_general _ G) as [[_ E]|[Bd _]].
  - rewrite E. rewrite <- (left_inverse_unique _ _ (proj1 I)). reflexivity.
  - elim Bd. apply (scalable_of_inverse _ _ I N).
Qed.
End Space.
