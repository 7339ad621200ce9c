(* C83-C84: delta_E_2000 against the published CIEDE2000 formula and against delta_E_1976, exact arithmetic *)
From Coq Require Import Reals ZArith QArith Qreals Lra Lia List Bool.
From Verif Require Import Outcome RealOps MathModel ColorModel LabModel XReal SpecLin TransferProofs LabProofs PropLab.
Open Scope R_scope.

Section P.
Context {K : XConst}.

(* ---- C83: the formula, geometrically ---- *)
Definition cosd (h : R) : R := cos (h * PI / 180).
Definition sind (h : R) : R := sin (h * PI / 180).
Definition chroma (a b : R) : R := sqrt (a ^ 2 + b ^ 2).
(* h is the direction, in degrees, of the plane vector (x, y) *)
Definition direction (h x y : R) : Prop := 0 <= h < 360 /\ exists r, 0 < r /\ x = r * cosd h /\ y = r * sind h.
Definition sgn (x : R) : R := if Rlt_dec 0 x then 1 else if Rlt_dec x 0 then -1 else 0.

(* CIE 142-2001 from lightnesses, chromas, hue difference and mean hue, all parametric factors 1 *)
Definition ciede2000 (L1 C1 L2 C2 dH h : R) : R :=
  let L := (L1 + L2) / 2 in
  let C := (C1 + C2) / 2 in
  let T := 1 - 0.17 * cosd (h - 30) + 0.24 * cosd (2 * h) + 0.32 * cosd (3 * h + 6) - 0.20 * cosd (4 * h - 63) in
  let SL := 1 + 0.015 * (L - 50) ^ 2 / sqrt (20 + (L - 50) ^ 2) in
  let SC := 1 + 0.045 * C in
  let SH := 1 + 0.015 * C * T in
  let RC := 2 * sqrt (C ^ 7 / (C ^ 7 + 25 ^ 7)) in
  let RT := - sind (2 * (30 * exp (- ((h - 275) / 25) ^ 2))) * RC in
  sqrt (((L2 - L1) / SL) ^ 2 + ((C2 - C1) / SC) ^ 2 + (dH / SH) ^ 2 + RT * ((C2 - C1) / SC) * (dH / SH)).

Lemma cosd_360 h : cosd (h + 360) = cosd h.
Proof. unfold cosd. replace ((h + 360) * PI / 180) with (h * PI / 180 + 2 * INR 1 * PI) by (cbn; field). apply cos_period. Qed.
Lemma sind_360 h : sind (h + 360) = sind h.
Proof. unfold sind. replace ((h + 360) * PI / 180) with (h * PI / 180 + 2 * INR 1 * PI) by (cbn; field). apply sin_period. Qed.
Lemma cosd_m360 h : cosd (h - 360) = cosd h.
Proof. rewrite <- (cosd_360 (h - 360)). f_equal. ring. Qed.
Lemma sind_m360 h : sind (h - 360) = sind h.
Proof. rewrite <- (sind_360 (h - 360)). f_equal. ring. Qed.
Lemma cosd_plus x y : cosd (x + y) = cosd x * cosd y - sind x * sind y.
Proof. unfold cosd, sind. rewrite <- cos_plus. f_equal. field. Qed.
Lemma sind_plus x y : sind (x + y) = sind x * cosd y + cosd x * sind y.
Proof. unfold cosd, sind. rewrite <- sin_plus. f_equal. field. Qed.
Lemma cosd_neg x : cosd (- x) = cosd x.
Proof. unfold cosd. rewrite <- cos_neg. f_equal. field. Qed.
Lemma sind_neg x : sind (- x) = - sind x.
Proof. unfold sind. rewrite <- sin_neg. f_equal. field. Qed.
Lemma cs2 x : cosd x * cosd x + sind x * sind x = 1.
Proof. unfold cosd, sind. pose proof (sin2_cos2 (x * PI / 180)). unfold Rsqr in *. lra. Qed.
Lemma cosd_90 : cosd 90 = 0. Proof. unfold cosd. replace (90 * PI / 180) with (PI / 2) by field. apply cos_PI2. Qed.
Lemma sind_90 : sind 90 = 1. Proof. unfold sind. replace (90 * PI / 180) with (PI / 2) by field. apply sin_PI2. Qed.
Lemma cosd_pos d : -90 < d < 90 -> 0 < cosd d.
Proof. intro H. pose proof PI_RGT_0. unfold cosd. apply cos_gt_0; nra. Qed.
Lemma sind_pos d : 0 < d < 180 -> 0 < sind d.
Proof. intro H. pose proof PI_RGT_0. unfold sind. apply sin_gt_0; nra. Qed.

(* equal directions, equal angles *)
Lemma angle_unique h k : 0 <= h < 360 -> 0 <= k < 360 -> cosd h = cosd k -> sind h = sind k -> h = k.
Proof.
  assert (A : forall h k, 0 <= h < 360 -> 0 <= k < 360 -> cosd h = cosd k -> sind h = sind k -> h <= k).
  { clear h k. intros h k Hh Hk Ec Es. destruct (Rle_dec h k) as [L|L]; [exact L|]. apply Rnot_le_lt in L. exfalso.
    assert (C1 : cosd (h + - k) = 1). { rewrite cosd_plus, cosd_neg, sind_neg, Ec, Es. pose proof (cs2 k). lra. }
    replace (h + - k) with ((h - k) / 2 + (h - k) / 2) in C1 by field. rewrite cosd_plus in C1.
    pose proof (cs2 ((h - k) / 2)). assert (P : 0 < sind ((h - k) / 2)) by (apply sind_pos; lra). nra. }
  intros. apply Rle_antisym; apply A; auto.
Qed.
Lemma direction_unique h k x y : direction h x y -> direction k x y -> h = k.
Proof.
  intros (Hh & r & Pr & X & Y) (Hk & s & Ps & X' & Y').
  assert (E : r = s).
  { assert (r * r = s * s). { transitivity (x * x + y * y); [rewrite X, Y|rewrite X', Y'].
      - pose proof (cs2 h). replace (r * cosd h * (r * cosd h) + r * sind h * (r * sind h)) with (r * r * (cosd h * cosd h + sind h * sind h)) by ring. rewrite H. ring.
      - pose proof (cs2 k). replace (s * cosd k * (s * cosd k) + s * sind k * (s * sind k)) with (s * s * (cosd k * cosd k + sind k * sind k)) by ring. rewrite H. ring. }
    nra. }
  subst s. apply angle_unique; [exact Hh|exact Hk|apply (Rmult_eq_reg_l r); lra|apply (Rmult_eq_reg_l r); lra].
Qed.
Lemma hyp_chroma a b : hyp a b = chroma a b.
Proof. unfold hyp, chroma. f_equal. ring. Qed.
Lemma hue_dir a b : a = hyp a b * cosd (hue b a) /\ b = hyp a b * sind (hue b a).
Proof. apply hue_polar. Qed.

(* every vector but 0 has exactly one direction *)
Theorem C83_direction : forall x y, x <> 0 \/ y <> 0 -> exists h, direction h x y /\ (forall k, direction k x y -> k = h).
Proof.
  intros x y N. exists (hue y x).
  assert (D : direction (hue y x) x y).
  { split; [apply hue_range|]. exists (hyp x y). destruct (hue_dir x y) as [A B]. split; [|split; assumption].
    destruct (Rle_lt_or_eq_dec _ _ (hyp_nonneg x y)) as [P|P]; [exact P|].
    symmetry in P. apply hyp_zero in P. destruct P, N; contradiction. }
  split; [exact D|]. intros k Dk. exact (direction_unique _ _ _ _ Dk D).
Qed.

(* mean and difference of hue, on the circle *)
Lemma mean_diff CC h1 h2 : CC <> 0 -> 0 <= h1 < 360 -> 0 <= h2 < 360 ->
  let m := hue_mean CC h1 h2 in let d := hue_diff CC h1 h2 in
  0 <= m < 360 /\ -180 <= d <= 180
  /\ cosd h1 = cosd (m - d / 2) /\ sind h1 = sind (m - d / 2)
  /\ cosd h2 = cosd (m + d / 2) /\ sind h2 = sind (m + d / 2)
  /\ (Rabs d = 180 -> d = h2 - h1 /\ m = (h1 + h2) / 2).
Proof.
  intros N H1 H2 m d. unfold m, d, hue_mean, hue_diff. rewrite (Rabs_minus_sym h1 h2).
  destruct (Req_EM_T CC 0) as [E|_]; [contradiction|].
  destruct (Rle_dec (Rabs (h2 - h1)) 180) as [L|L].
  - split; [lra|]. split; [unfold Rabs in L; destruct (Rcase_abs _); lra|].
    replace ((h1 + h2) / 2 - (h2 - h1) / 2) with h1 by field. replace ((h1 + h2) / 2 + (h2 - h1) / 2) with h2 by field.
    repeat split; reflexivity.
  - apply Rnot_le_lt in L. unfold Rabs in L.
    destruct (Rlt_dec 180 (h2 - h1)) as [G|G]; destruct (Rlt_dec (h1 + h2) 360) as [W|W]; destruct (Rcase_abs _); try lra.
    + replace ((h1 + h2 + 360) / 2 - (h2 - h1 - 360) / 2) with (h1 + 360) by field.
      replace ((h1 + h2 + 360) / 2 + (h2 - h1 - 360) / 2) with h2 by field. rewrite cosd_360, sind_360.
      split; [lra|]. split; [lra|]. do 4 (split; [reflexivity|]). unfold Rabs. destruct (Rcase_abs _); lra.
    + replace ((h1 + h2 - 360) / 2 - (h2 - h1 - 360) / 2) with h1 by field.
      replace ((h1 + h2 - 360) / 2 + (h2 - h1 - 360) / 2) with (h2 - 360) by field. rewrite cosd_m360, sind_m360.
      split; [lra|]. split; [lra|]. do 4 (split; [reflexivity|]). unfold Rabs. destruct (Rcase_abs _); lra.
    + replace ((h1 + h2 + 360) / 2 - (h2 - h1 + 360) / 2) with h1 by field.
      replace ((h1 + h2 + 360) / 2 + (h2 - h1 + 360) / 2) with (h2 + 360) by field. rewrite cosd_360, sind_360.
      split; [lra|]. split; [lra|]. do 4 (split; [reflexivity|]). unfold Rabs. destruct (Rcase_abs _); lra.
    + replace ((h1 + h2 - 360) / 2 - (h2 - h1 + 360) / 2) with (h1 - 360) by field.
      replace ((h1 + h2 - 360) / 2 + (h2 - h1 + 360) / 2) with h2 by field. rewrite cosd_m360, sind_m360.
      split; [lra|]. split; [lra|]. do 4 (split; [reflexivity|]). unfold Rabs. destruct (Rcase_abs _); lra.
Qed.

(* the code's value, with its hue difference and mean *)
Lemma de_form L1 a1 b1 L2 a2 b2 :
  let k := 1 + gfac a1 b1 a2 b2 in
  let C1 := hyp (k * a1) b1 in let C2 := hyp (k * a2) b2 in
  let h1 := hue b1 (k * a1) in let h2 := hue b2 (k * a2) in
  de2000 (L1, a1, b1) (L2, a2, b2)
  = ciede2000 L1 C1 L2 C2 (2 * sqrt (C1 * C2) * sind (hue_diff (C1 * C2) h1 h2 / 2)) (hue_mean (C1 * C2) h1 h2).
Proof.
  intros k C1 C2 h1 h2. unfold de2000, ciede2000. fold k C1 C2 h1 h2. unfold de_SL, de_T, de_RT, sat7, cosd, sind. f_equal.
  rewrite <- !(Rsqr_pow2 ((_) / _)). unfold Rsqr. rewrite !Rmult_assoc. reflexivity.
Qed.

Theorem C83_ciede2000 : forall L1 a1 b1 L2 a2 b2 : R,
  let C := (chroma a1 b1 + chroma a2 b2) / 2 in
  let G := 0.5 * (1 - sqrt (C ^ 7 / (C ^ 7 + 25 ^ 7))) in
  let x1 := (1 + G) * a1 in let x2 := (1 + G) * a2 in
  let C1 := chroma x1 b1 in let C2 := chroma x2 b2 in
  let dE := delta_E_2000 (FinLab (L1, a1, b1)) (FinLab (L2, a2, b2)) in
  (* a grey colour: no hue difference, and the mean hue does not matter *)
  ((C1 = 0 \/ C2 = 0) -> forall h, dE = Fin (ciede2000 L1 C1 L2 C2 0 h))
  (* two hues that are not opposite: the mean hue bisects them *)
  /\ (0 < C1 -> 0 < C2 -> forall h, direction h (x1 / C1 + x2 / C2) (b1 / C1 + b2 / C2) ->
      dE = Fin (ciede2000 L1 C1 L2 C2 (sgn (x1 * b2 - x2 * b1) * sqrt (2 * (C1 * C2 - x1 * x2 - b1 * b2))) h))
  (* opposite hues *)
  /\ (0 < C1 -> 0 < C2 -> x1 / C1 + x2 / C2 = 0 -> b1 / C1 + b2 / C2 = 0 -> forall h,
      ((0 < b1 \/ (b1 = 0 /\ 0 < x1)) -> direction h (- b1) x1 -> dE = Fin (ciede2000 L1 C1 L2 C2 (2 * sqrt (C1 * C2)) h))
      /\ ((b1 < 0 \/ (b1 = 0 /\ x1 < 0)) -> direction h b1 (- x1) -> dE = Fin (ciede2000 L1 C1 L2 C2 (- (2 * sqrt (C1 * C2))) h))).
Proof.
  intros L1 a1 b1 L2 a2 b2 C G x1 x2 C1 C2 dE. unfold dE. rewrite delta_E_2000_fin, de_form.
  assert (EG : gfac a1 b1 a2 b2 = G). { unfold gfac, G, C, sat7. rewrite !hyp_chroma. reflexivity. }
  rewrite EG. fold x1 x2. rewrite !hyp_chroma. fold C1 C2.
  set (h1 := hue b1 x1). set (h2 := hue b2 x2).
  destruct (hue_dir x1 b1) as [A1 B1]. destruct (hue_dir x2 b2) as [A2 B2].
  rewrite hyp_chroma in A1, B1, A2, B2. fold C1 h1 in A1, B1. fold C2 h2 in A2, B2.
  assert (R1 : 0 <= h1 < 360) by apply hue_range. assert (R2 : 0 <= h2 < 360) by apply hue_range.
  split; [|split].
  - intros Z h. apply (f_equal Fin).
    assert (CC : C1 * C2 = 0) by (destruct Z as [-> | ->]; ring). rewrite CC, sqrt_0.
    replace (2 * 0 * sind (hue_diff 0 h1 h2 / 2)) with 0 by ring. unfold ciede2000. f_equal. unfold Rdiv. ring.
  - intros P1 P2 h D. apply (f_equal Fin).
    assert (CC : C1 * C2 <> 0) by nra.
    pose proof (mean_diff (C1 * C2) h1 h2 CC R1 R2) as M. cbv zeta in M.
    set (m := hue_mean (C1 * C2) h1 h2) in *. set (d := hue_diff (C1 * C2) h1 h2) in *.
    destruct M as (Rm & Rd & Ec1 & Es1 & Ec2 & Es2 & _).
    rewrite Ec1 in A1. rewrite Es1 in B1. rewrite Ec2 in A2. rewrite Es2 in B2.
    unfold Rminus in A1, B1. rewrite cosd_plus, cosd_neg, sind_neg in A1. rewrite sind_plus, cosd_neg, sind_neg in B1.
    rewrite cosd_plus in A2. rewrite sind_plus in B2.
    set (cm := cosd m) in *. set (sm := sind m) in *. set (c := cosd (d / 2)) in *. set (s := sind (d / 2)) in *.
    assert (Q : c * c + s * s = 1) by apply cs2. assert (Qm : cm * cm + sm * sm = 1) by apply cs2.
    assert (V1 : x1 / C1 + x2 / C2 = 2 * c * cm). { rewrite A1, A2. field. lra. }
    assert (V2 : b1 / C1 + b2 / C2 = 2 * c * sm). { rewrite B1, B2. field. lra. }
    assert (c0 : 0 <= c). { unfold c. unfold cosd. pose proof PI_RGT_0. apply cos_ge_0; nra. }
    assert (cp : 0 < c).
    { destruct (Rle_lt_or_eq_dec 0 c c0) as [X|X]; [exact X|]. exfalso. destruct D as (_ & r & Pr & X1 & X2).
      rewrite V1, <- X in X1. rewrite V2, <- X in X2. pose proof (cs2 h). nra. }
    assert (Em : m = h). { apply (direction_unique m h (x1 / C1 + x2 / C2) (b1 / C1 + b2 / C2)); [|exact D].
      split; [exact Rm|]. exists (2 * c). split; [lra|]. split; [exact V1|exact V2]. }
    rewrite Em. f_equal.
    assert (X : x1 * b2 - x2 * b1 = 2 * (C1 * C2) * c * s).
    { rewrite A1, A2, B1, B2. replace (2 * (C1 * C2) * c * s) with (2 * (C1 * C2) * c * s * 1) by ring. rewrite <- Qm. ring. }
    assert (Y : 2 * (C1 * C2 - x1 * x2 - b1 * b2) = 4 * (C1 * C2) * (s * s)).
    { transitivity (2 * (C1 * C2 - C1 * C2 * ((c * c - s * s) * (cm * cm + sm * sm)))); [rewrite A1, A2, B1, B2; ring|].
      rewrite Qm. replace (c * c) with (1 - s * s) by lra. ring. }
    rewrite X, Y. rewrite (sqrt_mult (4 * (C1 * C2)) (s * s)) by nra. replace (4 * (C1 * C2)) with (2 * 2 * (C1 * C2)) by ring.
    rewrite (sqrt_mult (2 * 2)) by nra. rewrite (sqrt_square 2) by lra. rewrite (sqrt_Rsqr_abs s : sqrt (s * s) = Rabs s).
    assert (T : sgn (2 * (C1 * C2) * c * s) * Rabs s = s); [|rewrite <- T at 1; ring].
    assert (PC : 0 < 2 * (C1 * C2) * c) by (apply Rmult_lt_0_compat; nra). unfold sgn, Rabs.
    set (z := 2 * (C1 * C2) * c) in *.
    destruct (Rlt_dec 0 (z * s)), (Rlt_dec (z * s) 0), (Rcase_abs s); try nra.
    all: assert (s = 0) by nra; lra.
  - intros P1 P2 V1 V2 h.
    assert (CC : C1 * C2 <> 0) by nra.
    pose proof (mean_diff (C1 * C2) h1 h2 CC R1 R2) as M. cbv zeta in M.
    set (m := hue_mean (C1 * C2) h1 h2) in *. set (d := hue_diff (C1 * C2) h1 h2) in *.
    destruct M as (Rm & Rd & Ec1 & Es1 & Ec2 & Es2 & Hd).
    assert (AA := A1). assert (BB := B1).
    rewrite Ec1 in AA. rewrite Es1 in BB. rewrite Ec2 in A2. rewrite Es2 in B2.
    unfold Rminus in AA, BB. rewrite cosd_plus, cosd_neg, sind_neg in AA. rewrite sind_plus, cosd_neg, sind_neg in BB.
    rewrite cosd_plus in A2. rewrite sind_plus in B2.
    assert (c0 : cosd (d / 2) = 0).
    { assert (2 * cosd (d / 2) * cosd m = 0). { rewrite <- V1. rewrite AA, A2. field. lra. }
      assert (2 * cosd (d / 2) * sind m = 0). { rewrite <- V2. rewrite BB, B2. field. lra. }
      pose proof (cs2 m). nra. }
    assert (D : Rabs d = 180).
    { unfold Rabs. destruct (Rcase_abs d).
      - destruct (Rle_lt_or_eq_dec (-180) d ltac:(lra)) as [U|U]; [|lra].
        pose proof (cosd_pos (d / 2) ltac:(lra)). lra.
      - destruct (Rle_lt_or_eq_dec d 180 ltac:(lra)) as [U|U]; [|lra].
        pose proof (cosd_pos (d / 2) ltac:(lra)). lra. }
    destruct (Hd D) as [Ed Em].
    assert (up : h1 < 180 -> 0 < b1 \/ (b1 = 0 /\ 0 < x1)).
    { intro U. destruct (Rle_lt_or_eq_dec 0 h1 ltac:(lra)) as [W|W].
      - left. rewrite B1. apply Rmult_lt_0_compat; [exact P1|apply sind_pos; lra].
      - right. rewrite A1, B1, <- W. unfold cosd, sind. replace (0 * PI / 180) with 0 by field. rewrite sin_0, cos_0. lra. }
    assert (dn : 180 <= h1 -> b1 < 0 \/ (b1 = 0 /\ x1 < 0)).
    { intro U. assert (F1 : sind h1 = - sind (h1 - 180)). { unfold sind. replace (h1 * PI / 180) with ((h1 - 180) * PI / 180 + PI) by field. apply neg_sin. }
      assert (F2 : cosd h1 = - cosd (h1 - 180)). { unfold cosd. replace (h1 * PI / 180) with ((h1 - 180) * PI / 180 + PI) by field. apply neg_cos. }
      destruct (Rle_lt_or_eq_dec 180 h1 U) as [W|W].
      - left. rewrite B1, F1. pose proof (sind_pos (h1 - 180) ltac:(lra)). nra.
      - right. rewrite A1, B1, F1, F2, <- W. unfold cosd, sind. replace ((180 - 180) * PI / 180) with 0 by field. rewrite sin_0, cos_0. lra. }
    assert (m90 : forall e, e = 90 \/ e = -90 -> cosd e = 0). { intros e [-> | ->]; [apply cosd_90|]. replace (-90) with (- (90)) by ring. rewrite cosd_neg. apply cosd_90. }
    unfold Rabs in D. destruct (Rcase_abs d) as [Nd|Nd].
    + assert (d = -180) by lra. assert (Eh : h1 = 90 + m) by lra.
      assert (S : sind (d / 2) = -1). { rewrite H. replace (-180 / 2) with (- (90)) by field. rewrite sind_neg, sind_90. reflexivity. }
      split; [intros U _; exfalso; destruct (dn ltac:(lra)); lra|]. intros _ Dh. apply (f_equal Fin).
      rewrite S. replace (2 * sqrt (C1 * C2) * -1) with (- (2 * sqrt (C1 * C2))) by ring. f_equal.
      apply (direction_unique _ _ b1 (- x1)); [|exact Dh]. split; [exact Rm|]. exists C1. split; [exact P1|].
      rewrite A1, B1, Eh, cosd_plus, sind_plus, cosd_90, sind_90. split; ring.
    + assert (d = 180) by lra. assert (Eh : h1 = -90 + m) by lra.
      assert (S : sind (d / 2) = 1). { rewrite H. replace (180 / 2) with 90 by field. apply sind_90. }
      split; [|intros U _; exfalso; destruct (up ltac:(lra)); lra]. intros _ Dh. apply (f_equal Fin).
      rewrite S, Rmult_1_r. f_equal.
      apply (direction_unique _ _ (- b1) x1); [|exact Dh]. split; [exact Rm|]. exists C1. split; [exact P1|].
      assert (S90 : sind (-90) = -1). { replace (-90) with (- (90)) by ring. rewrite sind_neg, sind_90. reflexivity. }
      rewrite A1, B1, Eh, cosd_plus, sind_plus, S90, (m90 (-90) (or_intror eq_refl)). split; ring.
Qed.

(* opposite hues of equal chroma and lightness: only the hue term remains *)
Example C83_example : exists T, 0.07 <= T /\
  delta_E_2000 (FinLab (50, 0, 5)) (FinLab (50, 0, -5)) = Fin (10 / (1 + 0.075 * T)).
Proof.
  pose proof (C83_ciede2000 50 0 5 50 0 (-5)) as H. cbv zeta in H. destruct H as (_ & _ & H).
  rewrite !Rmult_0_r in H.
  assert (E1 : chroma 0 5 = 5). { unfold chroma. replace (0 ^ 2 + 5 ^ 2) with (5 * 5) by ring. apply sqrt_square. lra. }
  assert (E2 : chroma 0 (-5) = 5). { unfold chroma. replace (0 ^ 2 + (-5) ^ 2) with (5 * 5) by ring. apply sqrt_square. lra. }
  rewrite E1, E2 in H. destruct (H ltac:(lra) ltac:(lra) ltac:(lra) ltac:(lra) 180) as [H1 _].
  assert (D : direction 180 (- (5)) 0).
  { split; [lra|]. exists 5. unfold cosd, sind. replace (180 * PI / 180) with PI by field. rewrite cos_PI, sin_PI. lra. }
  assert (F5 : 0 < 5) by lra. specialize (H1 (or_introl F5) D). rewrite H1. exists (de_T 180). pose proof (de_T_pos 180) as P. split; [exact P|].
  apply (f_equal Fin). unfold ciede2000. fold (de_T 180).
  change (1 - 0.17 * cosd (180 - 30) + 0.24 * cosd (2 * 180) + 0.32 * cosd (3 * 180 + 6) - 0.20 * cosd (4 * 180 - 63)) with (de_T 180).
  rewrite sqrt_square by lra.
  set (q := 1 + 0.075 * de_T 180). assert (Q : 1 <= q) by (unfold q; lra).
  replace (1 + 0.015 * ((5 + 5) / 2) * de_T 180) with q by (unfold q; lra).
  match goal with |- sqrt ?e = _ => replace e with ((10 / q) * (10 / q)) end.
  - apply sqrt_square. apply Rmult_le_pos; [lra|]. left. apply Rinv_0_lt_compat. lra.
  - unfold Rdiv. ring.
Qed.

(* ---- C84 ---- *)
(* chroma and hue steps together are the distance in the stretched plane *)
Lemma law_of_cosines x1 b1 x2 b2 :
  let C1 := hyp x1 b1 in let C2 := hyp x2 b2 in
  let dH := 2 * sqrt (C1 * C2) * sind (hue_diff (C1 * C2) (hue b1 x1) (hue b2 x2) / 2) in
  (C2 - C1) ^ 2 + dH ^ 2 = (x2 - x1) ^ 2 + (b2 - b1) ^ 2.
Proof.
  intros C1 C2 dH. assert (P1 : 0 <= C1) by apply hyp_nonneg. assert (P2 : 0 <= C2) by apply hyp_nonneg.
  destruct (hue_dir x1 b1) as [A1 B1]. destruct (hue_dir x2 b2) as [A2 B2]. fold C1 in A1, B1. fold C2 in A2, B2.
  set (h1 := hue b1 x1) in *. set (h2 := hue b2 x2) in *. unfold dH.
  destruct (Req_dec (C1 * C2) 0) as [Z|N].
  - rewrite Z, sqrt_0. pose proof (cs2 h1) as Q1. pose proof (cs2 h2) as Q2. rewrite A1, B1, A2, B2.
    transitivity (C1 ^ 2 * (cosd h1 * cosd h1 + sind h1 * sind h1) + C2 ^ 2 * (cosd h2 * cosd h2 + sind h2 * sind h2) - 2 * (C1 * C2));
      [rewrite Q1, Q2; ring|].
    transitivity (C1 ^ 2 * (cosd h1 * cosd h1 + sind h1 * sind h1) + C2 ^ 2 * (cosd h2 * cosd h2 + sind h2 * sind h2)
      - 2 * (C1 * C2) * (cosd h1 * cosd h2 + sind h1 * sind h2)); [rewrite Z; ring|ring].
  - pose proof (mean_diff (C1 * C2) h1 h2 N (hue_range _ _) (hue_range _ _)) as M. cbv zeta in M.
    set (m := hue_mean (C1 * C2) h1 h2) in *. set (d := hue_diff (C1 * C2) h1 h2) in *.
    destruct M as (_ & _ & Ec1 & Es1 & Ec2 & Es2 & _).
    rewrite Ec1 in A1. rewrite Es1 in B1. rewrite Ec2 in A2. rewrite Es2 in B2.
    unfold Rminus in A1, B1. rewrite cosd_plus, cosd_neg, sind_neg in A1. rewrite sind_plus, cosd_neg, sind_neg in B1.
    rewrite cosd_plus in A2. rewrite sind_plus in B2.
    pose proof (cs2 (d / 2)) as Q. pose proof (cs2 m) as Qm.
    set (cm := cosd m) in *. set (sm := sind m) in *. set (c := cosd (d / 2)) in *. set (s := sind (d / 2)) in *.
    transitivity ((C2 - C1) ^ 2 + 4 * (sqrt (C1 * C2) * sqrt (C1 * C2)) * (s * s)); [ring|].
    rewrite sqrt_sqrt by nra.
    transitivity (((C2 - C1) ^ 2 * (c * c) + (C1 + C2) ^ 2 * (s * s)) * (cm * cm + sm * sm)).
    + rewrite Qm. replace (c * c) with (1 - s * s) by lra. ring.
    + rewrite A1, A2, B1, B2. ring.
Qed.
Lemma quot_sq x s : 1 <= s -> (x / s) ^ 2 <= x ^ 2.
Proof.
  intro H. replace ((x / s) ^ 2) with (x ^ 2 * (/ s * / s)) by (field; lra). assert (0 < / s <= 1).
  { split; [apply Rinv_0_lt_compat; lra|]. rewrite <- Rinv_1. apply Rinv_le_contravar; lra. }
  pose proof (pow2_ge_0 x). assert (/ s * / s <= 1) by nra. rewrite <- (Rmult_1_r (x ^ 2)) at 2. apply Rmult_le_compat_l; assumption.
Qed.

(* never more than sqrt 4.5 times the CIE 1976 difference *)
Theorem C84_bounded_by_1976 : forall c d : vec, exists e2000 e1976 : R,
  delta_E_2000 (FinLab c) (FinLab d) = Fin e2000 /\ delta_E_1976 (FinLab c) (FinLab d) = Fin e1976
  /\ e2000 <= sqrt 4.5 * e1976.
Proof.
  intros [[L1 a1] b1] [[L2 a2] b2]. rewrite delta_E_2000_fin, delta76_fin. do 2 eexists. do 2 (split; [reflexivity|]).
  rewrite de_form. set (k := 1 + gfac a1 b1 a2 b2). set (C1 := hyp (k * a1) b1). set (C2 := hyp (k * a2) b2).
  pose proof (law_of_cosines (k * a1) b1 (k * a2) b2) as LC. cbv zeta in LC. fold C1 C2 in LC.
  set (dH := 2 * sqrt (C1 * C2) * _) in *. set (h := hue_mean _ _ _).
  assert (P1 : 0 <= C1) by apply hyp_nonneg. assert (P2 : 0 <= C2) by apply hyp_nonneg.
  assert (Hk : 0 < k <= 1.5).
  { split; [apply gfac_pos|]. unfold k, gfac. pose proof (hyp_nonneg a1 b1). pose proof (hyp_nonneg a2 b2).
    pose proof (sat7_bounds ((hyp a1 b1 + hyp a2 b2) / 2) ltac:(lra)). lra. }
  set (C := (C1 + C2) / 2). assert (HC : 0 <= C) by (unfold C; lra).
  unfold norm3. rewrite <- sqrt_mult by (try lra; apply norm3_arg). unfold ciede2000. fold C.
  pose proof (de_SL_ge ((L1 + L2) / 2)) as SL. unfold de_SL in SL. set (sl := 1 + 0.015 * ((L1 + L2) / 2 - 50) ^ 2 / _) in *.
  pose proof (SH_ge C h HC) as SH. unfold de_T in SH. fold (cosd (h - 30)) (cosd (2 * h)) (cosd (3 * h + 6)) (cosd (4 * h - 63)) in SH.
  set (sh := 1 + 0.015 * C * _) in *. set (sc := 1 + 0.045 * C). assert (SC : 1 <= sc) by (unfold sc; lra).
  pose proof (de_RT_bound h C HC) as RT. unfold de_RT, sat7 in RT.
  replace ((h - 275) / 25 * ((h - 275) / 25)) with (((h - 275) / 25) ^ 2) in RT by ring.
  fold (sind (2 * (30 * exp (- ((h - 275) / 25) ^ 2)))) in RT. set (rt := - sind _ * _) in *.
  apply sqrt_le_1_alt.
  pose proof (quot_sq (L2 - L1) sl SL) as QL. pose proof (quot_sq (C2 - C1) sc SC) as QC. pose proof (quot_sq dH sh SH) as QH.
  set (u := (L2 - L1) / sl) in *. set (v := (C2 - C1) / sc) in *. set (w := dH / sh) in *.
  assert (CR : rt * v * w <= v ^ 2 + w ^ 2).
  { pose proof (pow2_ge_0 (v + w)). pose proof (pow2_ge_0 (v - w)). rewrite Rmult_assoc.
    destruct (Rle_dec 0 (v * w)) as [S|S].
    - assert (rt * (v * w) <= 2 * (v * w)) by (apply Rmult_le_compat_r; lra). lra.
    - assert (rt * (v * w) <= (-2) * (v * w)) by nra. lra. }
  assert (A : (k * a2 - k * a1) ^ 2 <= 2.25 * (a1 - a2) ^ 2).
  { replace ((k * a2 - k * a1) ^ 2) with (k ^ 2 * (a1 - a2) ^ 2) by ring. apply Rmult_le_compat_r; [apply pow2_ge_0|]. clear - Hk. nra. }
  assert (B : (b2 - b1) ^ 2 = (b1 - b2) ^ 2) by ring.
  assert (Lq : (L2 - L1) ^ 2 = (L1 - L2) ^ 2) by ring.
  pose proof (pow2_ge_0 (L1 - L2)). pose proof (pow2_ge_0 (b1 - b2)). lra.
Qed.

(* the triangle inequality fails, already for greys: black to white is farther than by way of mid grey *)
Theorem C84_triangle_fails : exists (c d e : vec) (cd ce ed : R),
  delta_E_2000 (FinLab c) (FinLab d) = Fin cd /\ delta_E_2000 (FinLab c) (FinLab e) = Fin ce
  /\ delta_E_2000 (FinLab e) (FinLab d) = Fin ed /\ ce + ed < 0.75 * cd.
Proof.
  exists (0, 0, 0), (100, 0, 0), (50, 0, 0). rewrite !C41_delta2000_greys. do 3 eexists. do 3 (split; [reflexivity|]).
  rewrite !Rabs_right by lra.
  replace (((0 + 100) / 2 - 50) ^ 2) with 0 by lra. replace (((0 + 50) / 2 - 50) ^ 2) with 625 by lra.
  replace (((50 + 100) / 2 - 50) ^ 2) with 625 by lra.
  assert (S : sqrt (20 + 625) <= 26). { rewrite <- (sqrt_square 26) by lra. apply sqrt_le_1_alt. lra. }
  assert (S0 : 0 < sqrt (20 + 625)) by (apply sqrt_lt_R0; lra).
  set (q := sqrt (20 + 625)) in *. assert (E : 1.35 <= 1 + 0.015 * 625 / q).
  { assert (0.35 <= 0.015 * 625 / q); [|lra]. apply (Rmult_le_reg_r q); [exact S0|]. unfold Rdiv. rewrite Rmult_assoc, Rinv_l by lra. lra. }
  set (s := 1 + 0.015 * 625 / q) in *.
  assert (I : 50 / s <= 50 / 1.35). { apply Rmult_le_compat_l; [lra|]. apply Rinv_le_contravar; lra. }
  replace ((50 - 0) / s) with (50 / s) by (f_equal; lra). replace ((100 - 50) / s) with (50 / s) by (f_equal; lra).
  replace ((100 - 0) / (1 + 0.015 * 0 / sqrt (20 + 0))) with 100.
  - lra.
  - unfold Rdiv. rewrite Rmult_0_r, Rmult_0_l, Rplus_0_r. lra.
Qed.
Example C84_example : exists e, delta_E_2000 (FinLab (40, 3, 4)) (FinLab (40, 0, 0)) = Fin e /\ e <= 11.
Proof.
  destruct (C84_bounded_by_1976 (40, 3, 4) (40, 0, 0)) as (e & f & E & F & H). exists e. split; [exact E|].
  rewrite delta76_fin in F. injection F as <-. unfold norm3 in H.
  replace ((40 - 40) ^ 2 + (3 - 0) ^ 2 + (4 - 0) ^ 2) with (5 * 5) in H by ring. rewrite sqrt_square in H by lra.
  assert (sqrt 4.5 <= 2.2). { rewrite <- (sqrt_square 2.2) by lra. apply sqrt_le_1_alt. lra. } lra.
Qed.
End P.
