(* C99: to_xyz in f64 against exact arithmetic *)
From Coq Require Import Reals ZArith QArith Qreals Lra Lia Bool List Sorting.Sorted.
From Flocq Require Import Core BinarySingleNaN.
From Verif Require Import Outcome RealOps MathModel ColorModel InterpModel VspdModel XReal SpecLin FloatInst FloatProofs ErrProofs CurveProofs VspdProofs SpragueProofs PropSprague AlignProofs PropAlign SpragueErrProofs PropInterp XyzProofs PropStab GridProofs.
Import ListNotations.
Open Scope R_scope.
Local Notation f64 := (binary_float 53 1024).
Local Notation g := (89 / 64).

Section F.
Context {K : XConst} (L : libm f64) (PI : powi5_ok 53 1024 (l_powi L)).
Notation ops := (b_ops 53 1024 L (b_of_Q 53 1024)).
Notation zshape s e i := (shape (IZR s) (IZR e) (IZR i)).

(* magnitudes far from overflow and underflow *)
Definition mid (A : R) : Prop := bpow radix2 (-200) <= A <= bpow radix2 200.
(* a float spectrum tabulated at increasing whole wavelengths, the exact values d it stands for *)
Definition tabulated (A c : R) (d : list (Z * R)) (s e : Z) (sp : vspd f64) : Prop :=
  rel A c d (v_samples sp) /\ zsorted d /\ (6 <= length d)%nat /\ Forall small (map fst d) /\ isZ s (v_start sp) /\ isZ e (v_end sp) /\ (first_key d <= s)%Z /\ (e <= last_key d)%Z.
Definition xspd (d : list (Z * R)) (s e : Z) (iv : interval xr) : vspd xr := Vspd (FinSamps (zr d)) (SpdShape (Fin (IZR s)) (Fin (IZR e)) iv).
Definition overlaps (a b s e : Z) : Prop := (Z.max a s <= Z.min b e)%Z.

Lemma mid_scale M k : mid M -> / 1000 <= k <= 1000000 -> scale (k * M).
Proof.
  intros [A B] C. pose proof (bpow_gt_0 radix2 (-200)). split.
  - apply Rle_trans with (bpow radix2 (-10) * bpow radix2 (-200)); [rewrite <- bpow_plus; apply bpow_le; lia|]. apply Rmult_le_compat; try apply bpow_ge_0; [change (/ 1024 <= k); lra|exact A].
  - apply Rle_trans with (bpow radix2 20 * bpow radix2 200); [|rewrite <- bpow_plus; apply bpow_le; lia]. apply Rmult_le_compat; try lra. change (bpow radix2 20) with 1048576. lra.
Qed.
Lemma mid_pos A : mid A -> 0 < A. Proof. intros [H _]. pose proof (bpow_gt_0 radix2 (-200)). lra. Qed.
Lemma mid2 A B k : mid A -> mid B -> / 1000 <= k <= 1000000 -> scale (k * (A * B)).
Proof.
  intros [A1 A2] [B1 B2] C. pose proof (bpow_gt_0 radix2 (-200)). split.
  - apply Rle_trans with (bpow radix2 (-10) * (bpow radix2 (-200) * bpow radix2 (-200))); [rewrite <- !bpow_plus; apply bpow_le; lia|]. apply Rmult_le_compat; try apply bpow_ge_0; [rewrite <- bpow_plus; apply bpow_ge_0|change (/ 1024 <= k); lra|]. apply Rmult_le_compat; lra.
  - apply Rle_trans with (bpow radix2 20 * (bpow radix2 200 * bpow radix2 200)); [|rewrite <- !bpow_plus; apply bpow_le; lia]. apply Rmult_le_compat; [lra|apply Rmult_le_pos; lra|change (bpow radix2 20) with 1048576; lra|]. apply Rmult_le_compat; lra.
Qed.
Lemma mid3 A B D k : mid A -> mid B -> mid D -> / 1000 <= k <= 1000000 -> scale (k * (A * B * D)).
Proof.
  intros [A1 A2] [B1 B2] [D1 D2] C. pose proof (bpow_gt_0 radix2 (-200)). split.
  - apply Rle_trans with (bpow radix2 (-10) * (bpow radix2 (-200) * bpow radix2 (-200) * bpow radix2 (-200))); [rewrite <- !bpow_plus; apply bpow_le; lia|]. apply Rmult_le_compat; try apply bpow_ge_0; [rewrite <- !bpow_plus; apply bpow_ge_0|change (/ 1024 <= k); lra|]. apply Rmult_le_compat; try lra; [rewrite <- bpow_plus; apply bpow_ge_0|]. apply Rmult_le_compat; lra.
  - apply Rle_trans with (bpow radix2 20 * (bpow radix2 200 * bpow radix2 200 * bpow radix2 200)); [|rewrite <- !bpow_plus; apply bpow_le; lia]. apply Rmult_le_compat; [lra|repeat apply Rmult_le_pos; lra|change (bpow radix2 20) with 1048576; lra|]. apply Rmult_le_compat; try lra; [apply Rmult_le_pos; lra|]. apply Rmult_le_compat; lra.
Qed.

(* aligning a tabulated spectrum to a..b every i *)
Lemma align_tab dbg fuel A c d s e sp iv tgt a b i : tabulated A c d s e sp -> scale A -> 0 <= c <= 1000000 -> rsh a b i tgt -> (1 <= i <= 1000000)%Z -> small a -> small b -> overlaps a b s e -> (b - a <= Z.of_nat fuel)%Z ->
  exists sp' d', @vspd_align _ ops dbg fuel sp tgt = Ret sp' /\ rsh a b i (v_shape sp') /\ vspd_align dbg fuel (xspd d s e iv) (zshape a b i) = Ret (xspd d' a b (Uniform (Fin (IZR i))))
    /\ rel (g * A) (c + 7551) d' (v_samples sp') /\ (Z.of_nat (length d') * i <= b - a + 2 * i)%Z
    /\ (i = 1%Z -> (a + 5 <= b)%Z -> scale (g * A) -> c <= 900000 -> tabulated (g * A) (c + 7551) d' a b sp').
Proof.
  intros (T1 & T2 & T3 & T4 & T5 & T6 & T7 & T8) SC CC RT II SA SB OV FU. destruct sp as [ss sh]. cbn [v_samples] in *.
  destruct (align_rel L PI dbg fuel A c d ss sh s e iv tgt a b i) as (ss' & sh' & d' & X1 & X2 & X3 & X4 & X5 & X6); try assumption; [exact (conj T1 (conj T2 (conj T3 (conj T4 (conj SC CC)))))|].
  exists (Vspd ss' sh'), d'. split; [exact X1|]. split; [exact X2|]. split; [exact X3|]. split; [exact X4|]. split; [exact X6|]. intros -> AB SG C9.
  destruct (aligned_data (g * A) (c + 7551) d' ss' a b X4 (X5 eq_refl) SA SB AB SG ltac:(lra)) as ((D1 & D2 & D3 & D4 & D5) & KF & KL). destruct X2 as (X2a & X2b & _). exact (conj D1 (conj D2 (conj D3 (conj D4 (conj X2a (conj X2b (conj (Z.eq_le_incl _ _ KF) (Z.eq_le_incl _ _ (eq_sym KL))))))))).
Qed.

(* ---- the integration ---- *)
(* the exact sum in the denominator of k, vspd.rs 487 *)
Definition weight (dbg : bool) (fuel : nat) (ill y : vspd xr) (sh : spd_shape xr) (dw : R) : outcome xr :=
  let! i := vspd_align dbg fuel ill sh in let! y := vspd_align dbg fuel y sh in
  Ret (fsum (map (fun '(i, y) => rmul (rmul i y) (Fin dw)) (combine (v_values i) (v_values y)))).
Definition close (E : R) (x : xr) (r : f64) : Prop := exists e, x = Fin e /\ is_finite r = true /\ Rabs (B2R r - e) <= E.
Definition close3 (E : R) (p : xyz xr) (q : xyz f64) : Prop := close E (xyz_x p) (xyz_x q) /\ close E (xyz_y p) (xyz_y q) /\ close E (xyz_z p) (xyz_z q).
Definition budget (kappa M : R) : R := (15000000000 * kappa + 16000000000000 * kappa ^ 2) * (u * M).

Lemma xvals d s e iv : v_values (xspd d s e iv) = Fins (map snd d).
Proof. unfold v_values, xspd. cbn [v_samples]. rewrite vals_fin. unfold zr. rewrite map_map. reflexivity. Qed.
Lemma comb_len {A B} (l : list A) (m : list B) n : (length m <= n)%nat -> (length (combine l m) <= n)%nat. Proof. rewrite combine_length. lia. Qed.

Lemma integ_rel dbg fuel a b i tgt M I C kappa S0 spd ill cx cy cz dS dI dX dY dZ sS eS ivS sI eI ivI sC eC ivX ivY ivZ :
  tabulated (g * M) 7552 dS sS eS spd -> tabulated (g * I) 7552 dI sI eI ill -> tabulated (g * C) 7552 dX sC eC cx -> tabulated (g * C) 7552 dY sC eC cy -> tabulated (g * C) 7552 dZ sC eC cz ->
  mid M -> mid I -> mid C -> rsh a b i tgt -> (1 <= i <= 5)%Z -> small a -> small b -> (b - a <= 420)%Z -> (b - a <= Z.of_nat fuel)%Z ->
  overlaps a b sS eS -> overlaps a b sI eI -> overlaps a b sC eC ->
  weight dbg fuel (xspd dI sI eI ivI) (xspd dY sC eC ivY) (zshape a b i) (IZR i) = Ret (Fin S0) -> 0 < S0 -> I * C <= kappa * S0 -> 0 <= kappa <= 1000000 ->
  exists p q, @spd_to_xyz_integration _ ops dbg fuel spd ill (Cmf cx cy cz) tgt = Ret p
    /\ spd_to_xyz_integration dbg fuel (xspd dS sS eS ivS) (xspd dI sI eI ivI) (Cmf (xspd dX sC eC ivX) (xspd dY sC eC ivY) (xspd dZ sC eC ivZ)) (zshape a b i) = Ret q /\ close3 (budget kappa M) q p.
Proof.
  intros TS TI TX TY TZ MM MI MC RT II SA SB AB FU OS OI OC HW HS HK KK. pose proof (mid_pos M MM) as M0. pose proof (mid_pos I MI) as I0. pose proof (mid_pos C MC) as C0. destruct u53 as [U0 U1].
  destruct (align_tab dbg fuel _ _ _ _ _ _ ivX _ _ _ _ TX ltac:(apply mid_scale; [exact MC|lra]) ltac:(lra) RT ltac:(lia) SA SB OC FU) as (cx' & dX' & X1 & _ & X3 & X4 & X5 & _).
  destruct (align_tab dbg fuel _ _ _ _ _ _ ivY _ _ _ _ TY ltac:(apply mid_scale; [exact MC|lra]) ltac:(lra) RT ltac:(lia) SA SB OC FU) as (cy' & dY' & Y1 & _ & Y3 & Y4 & Y5 & _).
  destruct (align_tab dbg fuel _ _ _ _ _ _ ivZ _ _ _ _ TZ ltac:(apply mid_scale; [exact MC|lra]) ltac:(lra) RT ltac:(lia) SA SB OC FU) as (cz' & dZ' & Z1 & _ & Z3 & Z4 & Z5 & _).
  destruct (align_tab dbg fuel _ _ _ _ _ _ ivI _ _ _ _ TI ltac:(apply mid_scale; [exact MI|lra]) ltac:(lra) RT ltac:(lia) SA SB OI FU) as (il' & dI' & I1 & _ & I3 & I4 & I5 & _).
  destruct (align_tab dbg fuel _ _ _ _ _ _ ivS _ _ _ _ TS ltac:(apply mid_scale; [exact MM|lra]) ltac:(lra) RT ltac:(lia) SA SB OS FU) as (sp' & dS' & S1 & _ & S3 & S4 & S5 & _).
  pose proof RT as (_ & _ & v & EV & IV). apply vals_rel in X4, Y4, Z4, I4, S4.
  assert (E2 : forall t, g * (g * t) = g * g * t) by (intro; ring). rewrite E2 in X4, Y4, Z4, I4, S4. set (gg := g * g) in *. assert (GG : 1.933 <= gg <= 1.934) by (unfold gg; lra). clearbody gg.
  assert (I1' : 1 <= IZR i <= 5) by (split; [apply (IZR_le 1)|apply (IZR_le _ 5)]; lia).
  assert (LEN : forall (d' : list (Z * R)), (Z.of_nat (length d') * i <= b - a + 2 * i)%Z -> (length d' <= 430)%nat /\ INR (length d') * IZR i <= 430). { intros d' H. split; [nia|]. rewrite INR_IZR_INZ, <- mult_IZR. apply (IZR_le _ 430). lia. }
  set (Sf := fold_left (Bplus mode_NE) (map (fun '(i, y) => Bmult mode_NE (Bmult mode_NE i y) v) (combine (v_values il') (v_values cy'))) (b_of_Q 53 1024 0.0)).
  assert (SR : vrel (1609 * (I * C)) 30641 S0 Sf).
  { assert (EW : S0 = fold_left Rplus (terms2 (map snd dI') (map snd dY') (IZR i)) 0). { unfold weight in HW. rewrite I3, Y3 in HW. cbn [obind] in HW. rewrite !xvals, sum2_left in HW. injection HW as HW. symmetry. exact HW. }
    rewrite EW. assert (E : gg * I * (gg * C) = gg * gg * (I * C)) by ring. assert (Ei : gg * I * (gg * C) * IZR i = gg * gg * IZR i * (I * C)) by ring. assert (GG2 : 3.7 <= gg * gg <= 3.7404) by nra. assert (IC : 0 < I * C) by (apply Rmult_lt_0_compat; lra).
    apply (vrel_weak _ (7552 + 7551 + (7552 + 7551) + 4 + 431)); [lra|lra|]. apply (fold_rel (gg * I * (gg * C) * IZR i)).
    - rewrite Ei. apply mid2; [exact MI|exact MC|]. nra.
    - lra.
    - apply terms2_rel; try assumption; try lra; try lia; try (apply Rmult_lt_0_compat; lra); [rewrite E; apply mid2; [exact MI|exact MC|nra]|rewrite Ei; apply mid2; [exact MI|exact MC|nra]].
    - unfold terms2. rewrite map_length. apply comb_len. rewrite map_length. apply (LEN dY' Y5).
    - destruct (LEN dY' Y5) as [_ LY]. assert (LC : INR (length (terms2 (map snd dI') (map snd dY') (IZR i))) <= INR (length dY')). { apply le_INR. unfold terms2. rewrite map_length. apply comb_len. rewrite map_length. lia. }
      rewrite Ei. set (n := INR (length (terms2 _ _ _))) in *. apply Rle_trans with (gg * gg * 430 * (I * C)); [|apply Rmult_le_compat_r; lra]. rewrite <- Rmult_assoc. apply Rmult_le_compat_r; [lra|]. pose proof (pos_INR (length dY')). assert (n * IZR i <= 430) by nra. assert (0 <= gg * gg) by lra. replace (n * (gg * gg * IZR i)) with (gg * gg * (n * IZR i)) by ring. apply Rmult_le_compat_l; lra. }
  assert (TR : forall (dc : list (Z * R)) (vc : list f64), Forall2 (vrel (gg * C) (7552 + 7551)) (map snd dc) vc -> (Z.of_nat (length dc) * i <= b - a + 2 * i)%Z ->
    vrel (3111 * (M * I * C)) 45750 (fold_left Rplus (terms3 (map snd dS') (map snd dI') (map snd dc) (IZR i)) 0) (@sum3 _ ops (v_values sp') (v_values il') vc v)).
  { intros dc vc V4 V5. assert (E : gg * M * (gg * I) = gg * gg * (M * I)) by ring. assert (Ec : gg * M * (gg * I) * (gg * C) = gg * gg * gg * (M * I * C)) by ring. assert (Ei : gg * M * (gg * I) * (gg * C) * IZR i = gg * gg * gg * IZR i * (M * I * C)) by ring. assert (GG2 : 3.7 <= gg * gg <= 3.7404) by nra. assert (GG3 : 7 <= gg * gg * gg <= 7.2340) by nra.
    assert (MI0 : 0 < M * I) by (apply Rmult_lt_0_compat; lra). assert (MIC : 0 < M * I * C) by (apply Rmult_lt_0_compat; lra).
    apply (vrel_weak _ (7552 + 7551 + (7552 + 7551) + (7552 + 7551) + 6 + 431)); [lra|lra|]. change (@sum3 _ ops (v_values sp') (v_values il') vc v) with (fold_left (Bplus mode_NE) (map (fun '((s, i), c) => Bmult mode_NE (Bmult mode_NE (Bmult mode_NE s i) c) v) (combine (combine (v_values sp') (v_values il')) vc)) (b_of_Q 53 1024 0.0)).
    apply (fold_rel (gg * M * (gg * I) * (gg * C) * IZR i)).
    - rewrite Ei. apply mid3; [exact MM|exact MI|exact MC|]. nra.
    - lra.
    - apply terms3_rel; try assumption; try lra; try lia; try (apply Rmult_lt_0_compat; lra); [rewrite E; apply mid2; [exact MM|exact MI|nra]|rewrite Ec; apply mid3; [exact MM|exact MI|exact MC|nra]|rewrite Ei; apply mid3; [exact MM|exact MI|exact MC|nra]].
    - unfold terms3. rewrite map_length. apply comb_len. rewrite map_length. apply (LEN dc V5).
    - destruct (LEN dc V5) as [_ LY]. assert (LC : INR (length (terms3 (map snd dS') (map snd dI') (map snd dc) (IZR i))) <= INR (length dc)). { apply le_INR. unfold terms3. rewrite map_length. apply comb_len. rewrite map_length. lia. }
      rewrite Ei. set (n := INR (length (terms3 _ _ _ _))) in *. apply Rle_trans with (gg * gg * gg * 430 * (M * I * C)); [|apply Rmult_le_compat_r; lra]. rewrite <- Rmult_assoc. apply Rmult_le_compat_r; [lra|]. pose proof (pos_INR (length dc)). assert (n * IZR i <= 430) by nra. replace (n * (gg * gg * gg * IZR i)) with (gg * gg * gg * (n * IZR i)) by ring. apply Rmult_le_compat_l; lra. }
  assert (IC : 0 < I * C) by (apply Rmult_lt_0_compat; lra).
  assert (IC1 : bpow radix2 (-400) <= I * C <= bpow radix2 400). { destruct MI as [A1 A2], MC as [B1 B2]. pose proof (bpow_gt_0 radix2 (-200)). split; [change (-400)%Z with (-200 + -200)%Z|change 400%Z with (200 + 200)%Z]; rewrite bpow_plus; apply Rmult_le_compat; lra. }
  assert (SUP : S0 <= 1609 * (I * C)). { destruct SR as (_ & B & _). rewrite Rabs_pos_eq in B by lra. exact B. }
  set (q := I * C / S0). assert (QS : q * S0 = I * C) by (unfold q; field; lra).
  assert (QK : / 1609 <= q <= kappa). { split; apply (Rmult_le_reg_r S0); try lra; rewrite QS; lra. }
  set (k := 100 / S0). assert (KE : k * S0 = 100) by (unfold k; field; lra). assert (K0 : 0 < k) by (unfold k; apply Rdiv_lt_0_compat; lra).
  assert (KQ : k * (I * C) = 100 * q) by (rewrite <- QS, <- KE; ring).
  assert (B400 : bpow radix2 400 * bpow radix2 (-400) = 1) by (rewrite <- bpow_plus; reflexivity). pose proof (bpow_gt_0 radix2 400) as B4. pose proof (bpow_gt_0 radix2 (-400)) as B4'.
  assert (KS : scale k).
  { split.
    - apply (Rmult_le_reg_r (I * C)); [exact IC|]. rewrite KQ. apply Rle_trans with (bpow radix2 (-900) * bpow radix2 400); [apply Rmult_le_compat_l; [apply bpow_ge_0|apply IC1]|]. rewrite <- bpow_plus. apply Rle_trans with (bpow radix2 (-10)); [apply bpow_le; lia|]. change (/ 1024 <= 100 * q). lra.
    - apply (Rmult_le_reg_r (I * C)); [exact IC|]. rewrite KQ. apply Rle_trans with (bpow radix2 900 * bpow radix2 (-400)); [|apply Rmult_le_compat_l; [apply bpow_ge_0|apply IC1]]. rewrite <- bpow_plus. apply Rle_trans with (bpow radix2 30); [change (100 * q <= 1073741824); lra|apply bpow_le; lia]. }
  assert (CA : 30641 * (1609 * (I * C)) / S0 = 30641 * 1609 * q) by (unfold q; field; lra).
  assert (KR : vrel k (1.02 * (30641 * 1609 * q) + 3) k (Bdiv mode_NE (b_of_Q 53 1024 100.0) Sf)).
  { rewrite <- CA. apply over_rel; [exact SR|apply isZ_lit; [clear; q2r; lra|lia]|exact HS| | |exact KS].
    - rewrite <- QS. replace (30641 * (u * (1609 * (q * S0)))) with (30641 * 1609 * (u * q) * S0) by ring. apply Rmult_le_compat_r; [lra|]. assert (u * q <= / 9000000000000000 * 1000000) by (apply Rmult_le_compat; lra). lra.
    - repeat apply Rmult_le_pos; lra. }
  assert (UQ : 0 <= u * q <= / 9000000000). { split; [apply Rmult_le_pos; lra|]. apply Rle_trans with (/ 9000000000000000 * 1000000); [apply Rmult_le_compat; lra|lra]. }
  assert (PS : k * (3111 * (M * I * C)) = 311100 * q * M) by (replace (k * (3111 * (M * I * C))) with (k * (I * C) * (3111 * M)) by ring; rewrite KQ; ring).
  assert (SP : scale (k * (3111 * (M * I * C)))).
  { rewrite PS. destruct MM as [A1 A2]. pose proof (bpow_gt_0 radix2 (-200)). split.
    - apply Rle_trans with (bpow radix2 0 * bpow radix2 (-200)); [rewrite <- bpow_plus; apply bpow_le; lia|]. apply Rmult_le_compat; try lra; try apply bpow_ge_0. change (1 <= 311100 * q). lra.
    - apply Rle_trans with (bpow radix2 60 * bpow radix2 200); [|rewrite <- bpow_plus; apply bpow_le; lia]. apply Rmult_le_compat; try lra. change (311100 * q <= 1152921504606846976). lra. }
  assert (PM : 0 < M * I * C) by (repeat apply Rmult_lt_0_compat; assumption).
  assert (FIN : forall (dc : list (Z * R)) (vc : list f64), Forall2 (vrel (gg * C) (7552 + 7551)) (map snd dc) vc -> (Z.of_nat (length dc) * i <= b - a + 2 * i)%Z ->
    close (budget kappa M) (rmul (Fin k) (sum3 (Fins (map snd dS')) (Fins (map snd dI')) (Fins (map snd dc)) (Fin (IZR i)))) (Bmult mode_NE (Bdiv mode_NE (b_of_Q 53 1024 100.0) Sf) (@sum3 _ ops (v_values sp') (v_values il') vc v))).
  { intros dc vc V4 V5. pose proof (TR dc vc V4 V5) as T. rewrite sum3_left, x_mul. eexists. split; [reflexivity|].
    destruct (mult_rel2 _ _ _ _ _ _ _ _ KR T SP) as (F & _ & D); [exact K0|lra| |lra|lra|].
    { split; [apply Rmult_le_pos; lra|]. replace ((1.02 * (30641 * 1609 * q) + 3) * u) with (1.02 * (30641 * 1609) * (u * q) + 3 * u) by ring. lra. }
    split; [exact F|]. eapply Rle_trans; [exact D|]. rewrite PS. unfold budget.
    assert (UM : 0 < u * M) by (apply Rmult_lt_0_compat; lra). assert (QK2 : q * q <= kappa * kappa) by (apply Rmult_le_compat; lra). 
    replace ((1.02 * (1.02 * (30641 * 1609 * q) + 3 + 45750) + 2) * (u * (311100 * q * M))) with ((1.02 * 1.02 * 30641 * 1609 * 311100 * (q * q) + (1.02 * (3 + 45750) + 2) * 311100 * q) * (u * M)) by (clear; q2r; field). apply Rmult_le_compat_r; [lra|]. cbn [pow]. rewrite Rmult_1_r. clear - QK QK2 KK. clearbody q. assert (0 <= kappa * kappa) by (apply Rmult_le_pos; lra). q2r. lra. }
  eexists _, _. split; [|split].
  - unfold spd_to_xyz_integration. cbn [x_bar y_bar z_bar]. rewrite X1, Y1, Z1, I1, S1. cbn [obind]. rewrite EV. reflexivity.
  - unfold spd_to_xyz_integration. cbn [x_bar y_bar z_bar]. rewrite X3, Y3, Z3, I3, S3. cbn [obind shape sh_interval]. reflexivity.
  - assert (EK : rdiv (rlitd 100.0) (fsum (map (fun '(i', y) => rmul (rmul i' y) (Fin (IZR i))) (combine (v_values (xspd dI' a b (Uniform (Fin (IZR i))))) (v_values (xspd dY' a b (Uniform (Fin (IZR i)))))))) = Fin k).
    { unfold weight in HW. rewrite I3, Y3 in HW. cbn [obind] in HW. apply (f_equal (fun o => match o with Ret w => w | _ => Fin 0 end)) in HW. cbn beta iota in HW. rewrite HW, x_litd, x_div by lra. f_equal. unfold k. f_equal. clear; q2r; lra. }
    rewrite EK, !xvals. unfold close3. cbn [xyz_x xyz_y xyz_z]. split; [apply FIN; assumption|]. split; apply FIN; assumption.
Qed.

(* ---- to_xyz ---- *)
(* the exact sum of illuminant times y-bar that to_xyz divides by: both are brought to 360..780 every 1 nm, then to the grid summed over *)
Definition normaliser (dbg : bool) (fuel : nat) (ill y : vspd xr) (sh : spd_shape xr) (dw : R) : outcome xr :=
  let! i := vspd_align dbg fuel ill (shape 360 780 1) in let! y := vspd_align dbg fuel y (shape 360 780 1) in weight dbg fuel i y sh dw.
Lemma usize_float i v : isZ i v -> (1 <= i <= 1000000)%Z -> b_to_usize 53 1024 v = Some i.
Proof.
  intros (F & E) H. assert (B : Btrunc v = i) by (apply trunc_floor; [exact F|lia|rewrite E; split; [lra|apply IZR_lt; lia]]). unfold b_to_usize. rewrite F, B. destruct (Z.leb_spec 0 i); [|lia]. destruct (Z.ltb_spec i 18446744073709551616); [reflexivity|lia].
Qed.
Lemma usize_exact i : (1 <= i <= 1000000)%Z -> rto_usize (Fin (IZR i)) = Some i.
Proof. intro H. assert (1 <= IZR i <= 1000000) by (split; [apply (IZR_le 1)|apply (IZR_le _ 1000000)]; lia). rewrite to_usize_fin by lra. rewrite Ztrunc_IZR. reflexivity. Qed.
Lemma tab_up A A' c c' d s e sp : 0 <= A <= A' -> 0 <= c <= c' -> tabulated A c d s e sp -> tabulated A' c' d s e sp.
Proof. intros HA HC (T1 & T). split; [|exact T]. clear T. induction T1 as [|p q d ss (P1 & P2) _ IH]; constructor; [|exact IH]. split; [exact P1|]. apply (vrel_up A A' c c'); assumption. Qed.
Lemma s1_float : rsh 360 780 1 (@shape_new _ (@rlitd _ ops 360.0) (@rlitd _ ops 780.0) (@rlitd _ ops 1.0)).
Proof. split; [apply isZ_lit; [clear; q2r; lra|lia]|]. split; [apply isZ_lit; [clear; q2r; lra|lia]|]. eexists. split; [reflexivity|]. apply isZ_lit; [clear; q2r; lra|lia]. Qed.
Lemma s1_exact : shape_new (rlitd 360.0) (rlitd 780.0) (rlitd 1.0) = shape 360 780 1.
Proof. unfold shape_new, shape. rewrite !x_litd. leq; clear; q2r; lra. Qed.
Lemma e308_float : rsh 360 780 1 (@astm_e308 _ ops).
Proof. split; [apply isZ_lit; [clear; q2r; lra|lia]|]. split; [apply isZ_of; lia|]. eexists. split; [reflexivity|]. apply isZ_lit; [clear; q2r; lra|lia]. Qed.
Lemma small36 : small 360 /\ small 780. Proof. unfold small. lia. Qed.

(* the two colour matching functions and the illuminant brought to 360..780 every 1 nm *)
Lemma first_align dbg fuel A d s e sp iv : tabulated A 1 d s e sp -> mid A -> (420 <= fuel)%nat -> overlaps 360 780 s e ->
  exists sp' d', @vspd_align _ ops dbg fuel sp (@shape_new _ (@rlitd _ ops 360.0) (@rlitd _ ops 780.0) (@rlitd _ ops 1.0)) = Ret sp'
    /\ vspd_align dbg fuel (xspd d s e iv) (shape 360 780 1) = Ret (xspd d' 360 780 (Uniform (Fin 1))) /\ tabulated (g * A) 7552 d' 360 780 sp'.
Proof.
  intros T MA FU OV. destruct small36 as [SA SB]. assert (SC : scale A) by (rewrite <- (Rmult_1_l A); apply mid_scale; [exact MA|lra]).
  destruct (align_tab dbg fuel _ _ _ _ _ _ iv _ _ _ _ T SC ltac:(lra) s1_float ltac:(lia) SA SB OV ltac:(lia)) as (sp' & d' & X1 & X2 & X3 & _ & _ & X6).
  exists sp', d'. split; [exact X1|]. split; [exact X3|]. replace 7552 with (1 + 7551) by lra. apply X6; [reflexivity|lia|apply mid_scale; [exact MA|lra]|lra].
Qed.

Theorem C99_to_xyz dbg fuel M I C kappa S0 spd ill cx cy cz dS dI dX dY dZ sS eS sI eI ivI sX eX ivX sY eY ivY sZ eZ ivZ i v :
  mid M -> mid I -> mid C -> (420 <= fuel)%nat ->
  tabulated M 1 dS sS eS spd -> tabulated I 1 dI sI eI ill -> tabulated C 1 dX sX eX cx -> tabulated C 1 dY sY eY cy -> tabulated C 1 dZ sZ eZ cz ->
  overlaps 360 780 sS eS -> overlaps 360 780 sI eI -> overlaps 360 780 sX eX -> overlaps 360 780 sY eY -> overlaps 360 780 sZ eZ ->
  v_interval spd = Uniform v -> isZ i v -> (1 <= i <= 1000000)%Z -> i <> 10%Z ->
  let dw := if Z.eqb i 5 then 5%Z else 1%Z in
  normaliser dbg fuel (xspd dI sI eI ivI) (xspd dY sY eY ivY) (zshape 360 780 dw) (IZR dw) = Ret (Fin S0) -> 0 < S0 -> I * C <= kappa * S0 -> 0 <= kappa <= 1000000 ->
  exists p q, @vspd_to_xyz _ ops dbg fuel spd ill (Cmf cx cy cz) = Ret p
    /\ vspd_to_xyz dbg fuel (xspd dS sS eS (Uniform (Fin (IZR i)))) (xspd dI sI eI ivI) (Cmf (xspd dX sX eX ivX) (xspd dY sY eY ivY) (xspd dZ sZ eZ ivZ)) = Ret q /\ close3 (budget kappa M) q p.
Proof.
  intros MM MI MC FU TS TI TX TY TZ OS OI OX OY OZ EV IV II I10 dw HN HS HK KK. pose proof (mid_pos M MM) as M0. destruct small36 as [SA SB].
  destruct (first_align dbg fuel I dI sI eI ill ivI TI MI FU OI) as (ill' & dI' & A1 & A2 & A3).
  destruct (first_align dbg fuel C dX sX eX cx ivX TX MC FU OX) as (cx' & dX' & B1 & B2 & B3).
  destruct (first_align dbg fuel C dY sY eY cy ivY TY MC FU OY) as (cy' & dY' & C1 & C2 & C3).
  destruct (first_align dbg fuel C dZ sZ eZ cz ivZ TZ MC FU OZ) as (cz' & dZ' & D1 & D2 & D3).
  unfold normaliser in HN. rewrite A2, C2 in HN. cbn [obind] in HN.
  assert (TS' : tabulated (g * M) 7552 dS sS eS spd) by (apply (tab_up M _ 1 _); [lra|lra|exact TS]).
  assert (INT : forall tgt, rsh 360 780 dw tgt -> exists p q, @spd_to_xyz_integration _ ops dbg fuel spd ill' (Cmf cx' cy' cz') tgt = Ret p
    /\ spd_to_xyz_integration dbg fuel (xspd dS sS eS (Uniform (Fin (IZR i)))) (xspd dI' 360 780 (Uniform (Fin 1))) (Cmf (xspd dX' 360 780 (Uniform (Fin 1))) (xspd dY' 360 780 (Uniform (Fin 1))) (xspd dZ' 360 780 (Uniform (Fin 1)))) (zshape 360 780 dw) = Ret q /\ close3 (budget kappa M) q p).
  { intros tgt RT. assert (O36 : overlaps 360 780 360 780) by (unfold overlaps; lia). apply (integ_rel dbg fuel 360 780 dw tgt M I C kappa S0 spd ill' cx' cy' cz' dS dI' dX' dY' dZ' sS eS _ 360 780 _ 360 780 _ _ _); try assumption; try lia; unfold dw; destruct (Z.eqb i 5); lia. }
  unfold vspd_to_xyz. rewrite A1. cbn [obind]. unfold cmf_align. cbn [x_bar y_bar z_bar]. rewrite B1, C1, D1. cbn [obind]. rewrite EV. cbn [rto_usize b_ops]. rewrite (usize_float i v IV II). cbn [unwrap obind].
  rewrite s1_exact, A2. cbn [obind]. rewrite B2, C2, D2. cbn [obind]. change (v_interval (xspd dS sS eS (Uniform (Fin (IZR i))))) with (Uniform (Fin (IZR i))). cbv iota. rewrite (usize_exact i II). cbn [unwrap obind].
  unfold dw in *. clear dw. destruct (Z.eqb_spec i 5) as [->|N5]; cbn [Z.eqb Pos.eqb].
  - destruct (INT (SpdShape (sh_start (@astm_e308 _ ops)) (sh_end (@astm_e308 _ ops)) (Uniform (@rlitd _ ops 5.0)))) as (p & q & P & Q & R3).
    { destruct e308_float as (E1 & E2 & _). split; [exact E1|]. split; [exact E2|]. eexists. split; [reflexivity|]. apply isZ_lit; [clear; q2r; lra|lia]. }
    exists p, q. split; [exact P|]. split; [|exact R3]. rewrite e308. unfold shape at 1 2. cbn [sh_start sh_end]. rewrite x_litd. replace (Q2R 5.0) with 5 by (clear; q2r; lra). exact Q.
  - destruct (INT (@astm_e308 _ ops) e308_float) as (p & q & P & Q & R3). exists p, q. destruct (Z.eqb_spec i 10) as [E|_]; [contradiction|]. rewrite e308. destruct (Z.eqb i 1); (split; [exact P|]; split; [exact Q|exact R3]).
Qed.
(* a spectrum with varying interval is integrated over its own range *)
Theorem C99_varying dbg fuel M I C kappa S0 spd ill cx cy cz dS dI dX dY dZ sS eS sI eI ivI sX eX ivX sY eY ivY sZ eZ ivZ :
  mid M -> mid I -> mid C -> (420 <= fuel)%nat ->
  tabulated M 1 dS sS eS spd -> tabulated I 1 dI sI eI ill -> tabulated C 1 dX sX eX cx -> tabulated C 1 dY sY eY cy -> tabulated C 1 dZ sZ eZ cz ->
  (360 <= sS)%Z -> (sS + 5 <= eS)%Z -> (eS <= 780)%Z -> overlaps 360 780 sI eI -> overlaps 360 780 sX eX -> overlaps 360 780 sY eY -> overlaps 360 780 sZ eZ ->
  v_interval spd = Varying ->
  normaliser dbg fuel (xspd dI sI eI ivI) (xspd dY sY eY ivY) (zshape sS eS 1) 1 = Ret (Fin S0) -> 0 < S0 -> I * C <= kappa * S0 -> 0 <= kappa <= 1000000 ->
  exists p q, @vspd_to_xyz _ ops dbg fuel spd ill (Cmf cx cy cz) = Ret p
    /\ vspd_to_xyz dbg fuel (xspd dS sS eS Varying) (xspd dI sI eI ivI) (Cmf (xspd dX sX eX ivX) (xspd dY sY eY ivY) (xspd dZ sZ eZ ivZ)) = Ret q /\ close3 (budget kappa M) q p.
Proof.
  intros MM MI MC FU TS TI TX TY TZ O1 O2 O3 OI OX OY OZ EV HN HS HK KK. pose proof (mid_pos M MM) as M0.
  destruct (first_align dbg fuel I dI sI eI ill ivI TI MI FU OI) as (ill' & dI' & A1 & A2 & A3).
  destruct (first_align dbg fuel C dX sX eX cx ivX TX MC FU OX) as (cx' & dX' & B1 & B2 & B3).
  destruct (first_align dbg fuel C dY sY eY cy ivY TY MC FU OY) as (cy' & dY' & C1 & C2 & C3).
  destruct (first_align dbg fuel C dZ sZ eZ cz ivZ TZ MC FU OZ) as (cz' & dZ' & D1 & D2 & D3).
  unfold normaliser in HN. rewrite A2, C2 in HN. cbn [obind] in HN.
  assert (SA : small sS) by (unfold small; lia). assert (SB : small eS) by (unfold small; lia). assert (SC : scale M) by (rewrite <- (Rmult_1_l M); apply mid_scale; [exact MM|lra]).
  pose proof TS as (_ & _ & _ & _ & IS & IE & _).
  assert (RT : rsh sS eS 1 (shape_new (v_start spd) (v_end spd) (@rlitd _ ops 1.0))). { split; [exact IS|]. split; [exact IE|]. eexists. split; [reflexivity|]. apply isZ_lit; [clear; q2r; lra|lia]. }
  destruct (align_tab dbg fuel _ _ _ _ _ _ Varying _ _ _ _ TS SC ltac:(lra) RT ltac:(lia) SA SB ltac:(unfold overlaps; lia) ltac:(lia)) as (sp' & dS' & X1 & X2 & X3 & _ & _ & X6).
  specialize (X6 eq_refl ltac:(lia) ltac:(apply mid_scale; [exact MM|lra]) ltac:(lra)). replace (1 + 7551) with 7552 in X6 by lra.
  destruct (integ_rel dbg fuel sS eS 1 (v_shape sp') M I C kappa S0 sp' ill' cx' cy' cz' dS' dI' dX' dY' dZ' sS eS (Uniform (Fin 1)) 360 780 (Uniform (Fin 1)) 360 780 (Uniform (Fin 1)) (Uniform (Fin 1)) (Uniform (Fin 1))) as (p & q & P & Q & R3); try assumption; try lia; try (unfold overlaps; lia).
  exists p, q. unfold vspd_to_xyz. rewrite A1. cbn [obind]. unfold cmf_align. cbn [x_bar y_bar z_bar]. rewrite B1, C1, D1. cbn [obind]. rewrite EV, X1. cbn [obind]. split; [exact P|]. split; [|exact R3].
  rewrite s1_exact, A2. cbn [obind]. rewrite B2, C2, D2. cbn [obind]. change (v_interval (xspd dS sS eS Varying)) with (@Varying xr). cbv iota. change (v_start (xspd dS sS eS Varying)) with (Fin (IZR sS)). change (v_end (xspd dS sS eS Varying)) with (Fin (IZR eS)).
  replace (shape_new (Fin (IZR sS)) (Fin (IZR eS)) (rlitd 1.0)) with (zshape sS eS 1). 2: { unfold shape_new, shape. rewrite x_litd. leq; clear; q2r; lra. }
  rewrite X3. cbn [obind]. exact Q.
Qed.
End F.
