(* C117: spd_to_nit in f64 against exact arithmetic *)
From Coq Require Import Reals ZArith QArith Qreals Lra Lia Bool List Sorting.Sorted.
From Flocq Require Import Core BinarySingleNaN.
From Verif Require Import Outcome RealOps MathModel ColorModel InterpModel VspdModel UpliftModel XReal SpecLin FloatInst FloatProofs ErrProofs CurveProofs VspdProofs PropShape SpragueProofs PropSprague AlignProofs PropAlign SpragueErrProofs PropInterp XyzProofs PropXyz PropDiffuser PropTables WhiteProofs PropWhite PropStab GridProofs PropXyzFloat PropXyzTables.
From Verif Require PropWeights.
From Verif Require Import DataIllum DataCmf.
Import ListNotations.
Open Scope R_scope.
Local Notation f64 := (binary_float 53 1024).
Local Notation g := (89 / 64).
Local Notation u := (bpow radix2 (- (53))).

Lemma div_rel A c e r n h : vrel A c e r -> isZ n h -> (1 <= n)%Z -> scale (A / IZR n) -> 0 < A -> 0 <= c <= 1000000 -> vrel (A / IZR n) (c + 2) (e / IZR n) (Bdiv mode_NE r h).
Proof.
  intros (F & B & D) (FH & EH) N1 SC A0 CC. destruct u53 as [U0 U1]. pose proof (cu_small c CC) as CU. assert (N0 : 1 <= IZR n) by (apply (IZR_le 1), N1). assert (I0 : 0 < / IZR n) by (apply Rinv_0_lt_compat; lra).
  assert (SL : forall x y, Rabs x <= y -> Rabs (x / IZR n) <= y / IZR n) by (intros x y H; unfold Rdiv; rewrite Rabs_mult, (Rabs_pos_eq (/ IZR n)) by lra; apply Rmult_le_compat_r; lra).
  pose proof (SL _ _ B) as B'. pose proof (SL _ _ D) as D'. replace (c * (u * A) / IZR n) with (c * (u * (A / IZR n))) in D' by (field; lra). replace ((B2R r - e) / IZR n) with (B2R r / IZR n - e / IZR n) in D' by (field; lra). pose proof (scale_pos _ SC) as P. set (X := A / IZR n) in *.
  assert (CX : c * (u * X) <= / 1000 * X) by (rewrite <- Rmult_assoc; apply Rmult_le_compat_r; lra). assert (TB : Rabs (B2R r / IZR n) <= 1.001 * X). { replace (B2R r / IZR n) with ((B2R r / IZR n - e / IZR n) + e / IZR n) by ring. eapply Rle_trans; [apply Rabs_triang|]. lra. }
  destruct (fdiv 53 1024 r h F) as [G V]; [rewrite EH; lra|rewrite EH; apply (scale_below X _ SC); lra|]. rewrite EH in V. split; [exact G|]. split; [exact B'|]. rewrite V. pose proof (rnd_any 53 1024 (B2R r / IZR n)) as RR. pose proof (scale_eta _ SC) as ET.
  assert (u * Rabs (B2R r / IZR n) <= u * (1.001 * X)) by (apply Rmult_le_compat_l; lra). assert (0 < u * X) by (apply Rmult_lt_0_compat; lra). eapply Rle_trans; [apply (rabs_le3 _ (B2R r / IZR n))|]. lra.
Qed.
Lemma zip_rel A B c c' es rs : 0 < A -> 0 < B -> scale (A * B) -> 0 <= c <= 1000000 -> 0 <= c' <= 1000000 -> Forall2 (vrel A c) es rs -> forall fs gs, Forall2 (vrel B c') fs gs ->
  Forall2 (vrel (A * B) (c + c' + 2)) (map (fun p => fst p * snd p) (combine es fs)) (map (fun '(a, b) => Bmult mode_NE a b) (combine rs gs)).
Proof.
  intros A0 B0 SC CC CC' H. induction H as [|e r es rs H1 H IH]; intros fs gs G; [constructor|]. destruct G as [|f s fs gs G1 G]; [constructor|]. cbn [combine map fst snd]. constructor; [apply mult_rel; assumption|apply IH; exact G].
Qed.

Section F.
Context {K : XConst} (L : libm f64) (PI : powi5_ok 53 1024 (l_powi L)).
Notation ops := (b_ops 53 1024 L (b_of_Q 53 1024)).

Theorem C117_nit dbg fuel M C spd cm d s e i w dY sY eY ivY x z : mid M -> mid C -> rel M 1 d (v_samples spd) -> (1 <= length d <= 1000)%nat -> isZ s (v_start spd) -> isZ e (v_end spd) -> v_interval spd = Uniform w -> isZ i w -> (1 <= i <= 1000000)%Z ->
  small s -> small e -> tabulated C 1 dY sY eY (y_bar cm) -> overlaps s e sY eY -> (e - s <= Z.of_nat fuel)%Z ->
  exists p q, @spd_to_nit _ ops dbg fuel spd cm = Ret p /\ spd_to_nit dbg fuel (xspd d s e (Uniform (Fin (IZR i)))) (Cmf x (xspd dY sY eY ivY) z) = Ret (Fin q) /\ is_finite p = true /\ Rabs (B2R p - q) <= M * C / 1000000000.
Proof.
  intros MM MC RD LD IS IE IV IW II SS SE TY OV FU. pose proof (mid_pos M MM) as M0. pose proof (mid_pos C MC) as C0. destruct u53 as [U0 U1].
  assert (SC : scale C) by (rewrite <- (Rmult_1_l C); apply mid_scale; [exact MC|lra]). assert (RS : rsh s e i (v_shape spd)) by (split; [exact IS|]; split; [exact IE|]; exists w; split; [exact IV|exact IW]).
  destruct (align_tab L PI dbg fuel C 1 dY sY eY (y_bar cm) ivY (v_shape spd) s e i TY SC ltac:(lra) RS II SS SE OV FU) as (y' & d' & Y1 & _ & Y3 & Y4 & _ & _).
  set (es := map (fun p => fst p * snd p) (combine (map snd d) (map snd d'))). set (N := Z.of_nat (length d)). assert (N1 : (1 <= N <= 1000)%Z) by (unfold N; lia). assert (NR : 1 <= IZR N <= 1000) by (split; [apply (IZR_le 1)|apply (IZR_le _ 1000)]; lia).
  assert (MC0 : 0 < M * C) by (apply Rmult_lt_0_compat; assumption). assert (EA : M * (g * C) = g * (M * C)) by ring. assert (SA : scale (M * (g * C))) by (rewrite EA; apply mid2; [exact MM|exact MC|lra]). assert (GC : 0 < g * C) by lra.
  pose proof (zip_rel M (g * C) 1 (1 + 7551) _ _ M0 GC SA ltac:(lra) ltac:(lra) (vals_rel _ _ _ _ RD) _ _ (vals_rel _ _ _ _ Y4)) as ZR. fold es in ZR.
  assert (LE : (length es <= length d)%nat) by (unfold es; rewrite map_length, combine_length, !map_length; lia).
  set (Sf := fold_left (Bplus mode_NE) (map (fun '(a, b) => Bmult mode_NE a b) (combine (map s_v (v_samples spd)) (map s_v (v_samples y')))) (b_of_Q 53 1024 0.0)).
  assert (SR : vrel (IZR N * (M * (g * C))) 8556 (fold_left Rplus es 0) Sf).
  { destruct (isZ_lit 0.0 0) as [F0 E0]; [clear; q2r; lra|lia|].
    destruct (sum_rel _ (1 + (1 + 7551) + 2) SA ltac:(lra) es _ ZR 0 0 (b_of_Q 53 1024 0.0)) as (F & X & D); [lia|exact F0|rewrite Rabs_R0; cbn [INR]; lra|rewrite E0, Rminus_0_r, Rabs_R0; cbn [INR]; lra|]. cbn [Nat.add] in *.
    assert (NE : 0 <= INR (length es) <= IZR N) by (split; [apply pos_INR|]; unfold N; rewrite <- INR_IZR_INZ; apply le_INR, LE). pose proof (scale_pos _ SA) as A0. set (A := M * (g * C)) in *. set (n := INR (length es)) in *. assert (NA : n * A <= IZR N * A) by (apply Rmult_le_compat_r; lra). assert (0 <= n * A) by (apply Rmult_le_pos; lra).
    split; [exact F|]. split; [lra|]. eapply Rle_trans; [exact D|]. replace (n * (1 + (1 + 7551) + 2 + n + 1) * (u * A)) with ((1 + (1 + 7551) + 2 + n + 1) * (u * (n * A))) by ring. apply Rmult_le_compat; [lra|apply Rmult_le_pos; lra|lra|apply Rmult_le_compat_l; lra]. }
  assert (R6 : vrel 683 0 683 (b_of_Q 53 1024 683.0)). { destruct (isZ_lit 683.0 683) as [F6 E6]; [clear; q2r; lra|lia|]. split; [exact F6|]. rewrite E6, Rminus_diag_eq, Rabs_R0, Rabs_pos_eq by lra. split; lra. }
  assert (NP : 0 < IZR N * (M * (g * C))) by (apply Rmult_lt_0_compat; lra).
  assert (S6 : scale (IZR N * (M * (g * C)) * 683)) by (replace (IZR N * (M * (g * C)) * 683) with ((IZR N * g * 683) * (M * C)) by ring; apply mid2; [exact MM|exact MC|lra]).
  pose proof (mult_rel _ _ _ _ _ _ _ _ SR R6 S6 NP ltac:(lra) ltac:(lra) ltac:(lra)) as PR.
  assert (ED : IZR N * (M * (g * C)) * 683 / IZR N = g * 683 * (M * C)) by (field; lra). assert (SD : scale (IZR N * (M * (g * C)) * 683 / IZR N)) by (rewrite ED; apply mid2; [exact MM|exact MC|lra]).
  pose proof (div_rel _ _ _ _ N (b_of_Z 53 1024 N) PR (isZ_of N ltac:(lia)) ltac:(lia) SD ltac:(lra) ltac:(lra)) as (FQ & _ & DQ). rewrite ED in DQ.
  exists (Bdiv mode_NE (Bmult mode_NE Sf (b_of_Q 53 1024 683.0)) (b_of_Z 53 1024 N)), (fold_left Rplus es 0 * 683 / IZR N). split; [|split; [|split]].
  - unfold spd_to_nit. rewrite Y1. cbn [obind]. unfold N. rewrite <- (rel_length _ _ _ _ RD). reflexivity.
  - unfold spd_to_nit. cbn [y_bar]. change (v_shape (xspd d s e (Uniform (Fin (IZR i))))) with (shape (IZR s) (IZR e) (IZR i)). rewrite Y3. cbn [obind]. rewrite !xvals, zip_mul_fin. fold es. rewrite fsum_left, x_litd, x_mul. unfold of_usize. cbn [xspd v_samples]. unfold FinSamps. rewrite map_length, zr_length. fold N. rewrite x_of_Z, x_div by lra. replace (Q2R 683.0) with 683 by (clear; q2r; lra). reflexivity.
  - exact FQ.
  - eapply Rle_trans; [exact DQ|]. set (k := M * C) in *. assert (u * k <= / 9000000000000000 * k) by (apply Rmult_le_compat_r; lra). replace ((8556 + 0 + 2 + 2) * (u * (g * 683 * k))) with ((8556 + 0 + 2 + 2) * (g * 683) * (u * k)) by ring. lra.
Qed.

(* the tabulated luminous efficiency at a whole number of nanometres *)
Definition efficacy (nm : Z) : R := Q2R (snd (nth (Z.to_nat (nm - 360)) data_y_bar (0, 0)%Q)).
Definition nit (d : list (Z * R)) (s i : Z) : R := fold_right Rplus 0 (map (fun k => snd (nth k d (0%Z, 0)) * efficacy (s + Z.of_nat k * i)) (seq 0 (length d))) * 683 / INR (length d).

Lemma nth_pair {A B} (x : A) (y : B) (l : list A) : forall (m : list B) k, length l = length m -> nth k (combine l m) (x, y) = (nth k l x, nth k m y).
Proof. induction l as [|a l IH]; intros [|b m] k H; try discriminate; [destruct k; reflexivity|]. destruct k; [reflexivity|]. cbn [combine nth]. apply IH. cbn in H. congruence. Qed.
Lemma exact_nit dbg fuel d s i x z : let e := (s + (Z.of_nat (length d) - 1) * i)%Z in (1 <= length d)%nat -> (0 < i)%Z -> (360 <= s)%Z -> (e <= 830)%Z -> (e - s <= Z.of_nat fuel)%Z ->
  spd_to_nit dbg fuel (xspd d s e (Uniform (Fin (IZR i)))) (Cmf x (xspd (zd 360 1 data_y_bar) 360 830 (Uniform (Fin 1))) z) = Ret (Fin (nit d s i)).
Proof.
  intros e LD I0 S0 E0 FU. set (N := length d) in *. assert (IR : 0 < IZR i) by (apply IZR_lt, I0). assert (SR : 360 <= IZR s) by (apply IZR_le, S0). assert (ER : IZR e <= 830) by (apply IZR_le, E0). assert (SE : (s <= e)%Z) by (unfold e; nia). assert (SER : IZR s <= IZR e) by (apply IZR_le, SE).
  assert (EE : IZR e = IZR s + INR (N - 1) * IZR i) by (unfold e; rewrite plus_IZR, mult_IZR, INR_IZR_INZ; do 3 f_equal; lia).
  assert (ST : steps (IZR s) (IZR e) (IZR i) = (N - 1)%nat) by (apply steps_unique; [exact IR|rewrite EE, S_INR; lra]).
  assert (XY : xspd (zd 360 1 data_y_bar) 360 830 (Uniform (Fin 1)) = uspd 360 830 1 (vals data_y_bar) (Uniform (Fin 1))) by (unfold xspd, uspd; rewrite zd_even; reflexivity).
  assert (LY : length (vals data_y_bar) = 471%nat) by (unfold vals; rewrite map_length; reflexivity).
  unfold spd_to_nit. cbn [y_bar]. rewrite XY. change (v_shape (xspd d s e (Uniform (Fin (IZR i))))) with (shape (IZR s) (IZR e) (IZR i)). rewrite align_uspd.
  - cbn [obind]. rewrite xvals, uspd_vals, zip_mul_fin, fsum_fin, x_litd, x_mul. unfold of_usize. cbn [xspd v_samples]. unfold FinSamps. rewrite map_length, zr_length. fold N. rewrite x_of_Z, <- INR_IZR_INZ, x_div by (apply not_0_INR; lia). unfold nit. fold N. f_equal. f_equal. f_equal. f_equal; [|clear; q2r; lra].
    unfold rsum. f_equal. assert (LR : length (map snd d) = length (resampled 360 830 1 (vals data_y_bar) (IZR s) (IZR e) (IZR i))) by (rewrite map_length, resampled_length, ST; fold N; lia).
    apply nth_ext with (d := fst (0, 0) * snd (0, 0)) (d' := 0). { rewrite !map_length, combine_length, <- LR, map_length, seq_length. fold N. lia. }
    intros k HK. rewrite map_length, combine_length, <- LR, map_length in HK. fold N in HK. assert (KN : (k < N)%nat) by lia. rewrite (map_nth (fun p => fst p * snd p)), nth_pair by exact LR. cbn [fst snd].
    rewrite (PropWeights.nth_map_seq (fun k => snd (nth k d (0%Z, 0)) * efficacy (s + Z.of_nat k * i))) by exact KN. f_equal; [change 0 with (snd (0%Z, 0)) at 1; apply map_nth|].
    rewrite resampled_nth by (rewrite ST; lia). set (j := Z.to_nat (s + Z.of_nat k * i - 360)). assert (KI : (s + Z.of_nat k * i <= e)%Z) by (unfold e; nia). assert (JJ : Z.of_nat j = (s + Z.of_nat k * i - 360)%Z) by (unfold j; nia).
    replace (IZR s + INR k * IZR i) with (360 + INR j * 1) by (rewrite !INR_IZR_INZ, JJ, minus_IZR, plus_IZR, mult_IZR; ring). rewrite av_knot; try lra; try lia.
    + unfold efficacy. fold j. unfold vals. replace 0 with (Q2R (snd (0, 0)%Q)) by (cbn [snd]; unfold Q2R; cbn; lra). rewrite (map_nth (fun p => Q2R (snd p))). reflexivity.
    + rewrite INR_IZR_INZ, JJ. apply IZR_le in KI. rewrite minus_IZR. lra.
  - unfold alignable. rewrite LY, (INR_IZR_INZ 471), Rmax_left, Rmin_left by lra. cbn [Z.of_nat Pos.of_succ_nat Pos.succ]. repeat apply conj; try lia; try lra; try (left; lra). unfold countable. rewrite EE. unfold Rdiv. replace ((IZR s + INR (N - 1) * IZR i - IZR s) * / IZR i) with (INR (N - 1)) by (field; lra).
    assert (I1 : 1 <= IZR i) by (apply (IZR_le 1); lia). assert (0 <= INR (N - 1)) by apply pos_INR. nra.
  - rewrite ST. unfold e in FU. nia.
Qed.

(* with the built-in colour matching functions: 683 times the mean of sample times luminous efficiency *)
Theorem C117_builtin dbg fuel M spd d s i w : XConstOk K -> mid M -> rel M 1 d (v_samples spd) -> (1 <= length d)%nat -> let e := (s + (Z.of_nat (length d) - 1) * i)%Z in
  isZ s (v_start spd) -> isZ e (v_end spd) -> v_interval spd = Uniform w -> isZ i w -> (1 <= i <= 1000000)%Z -> (360 <= s)%Z -> (e <= 830)%Z -> (e - s <= Z.of_nat fuel)%Z ->
  exists cm p, @cie_1931_2_degree _ ops = Ret cm /\ @spd_to_nit _ ops dbg fuel spd cm = Ret p /\ is_finite p = true /\ Rabs (B2R p - nit d s i) <= M / 500000000.
Proof.
  intros OK MM RD LD e IS IE IV IW II S0 E0 FU. pose proof (mid_pos M MM) as M0. assert (LD' : (length d <= 1000)%nat) by (unfold e in E0; nia). assert (SE : (s <= e)%Z) by (unfold e; nia).
  assert (QC : Q2R 1.79 + / 100 <= 1.8 <= 1000000) by (clear; q2r; lra).
  assert (MC : mid 1.8) by (unfold mid; change (bpow radix2 (-200)) with (/ IZR (2 ^ 200)); split; [apply Rle_trans with (/ 1); [apply Rinv_le; [lra|apply IZR_le; discriminate]|clear; q2r; lra]|apply Rle_trans with (bpow radix2 10); [change (bpow radix2 10) with 1024; clear; q2r; lra|apply bpow_le; lia]]).
  assert (G : forall b, In b [data_x_bar; data_y_bar; data_z_bar] -> exists sp, @vspd_table _ ops b = Ret sp /\ tabulated 1.8 1 (zd 360 1 b) 360 830 sp).
  { intros b Ib. destruct (cmf_ok b Ib) as (B1 & B2 & B3). destruct (table_tab L OK 1.79 1.8 b 360 1 471 QC ltac:(lia) B2 ltac:(lia) ltac:(lia) B1 B3 ltac:(lia)) as (sp & X1 & X2 & _). exists sp. split; [exact X1|exact X2]. }
  destruct (G data_x_bar ltac:(cbn; tauto)) as (cx & Cx & _). destruct (G data_y_bar ltac:(cbn; tauto)) as (cy & Cy & Ty). destruct (G data_z_bar ltac:(cbn; tauto)) as (cz & Cz & _). clear G.
  set (n0 := xspd [] 0 0 (Uniform (Fin 1))).
  destruct (C117_nit dbg fuel M 1.8 spd (Cmf cx cy cz) d s e i w (zd 360 1 data_y_bar) 360 830 (Uniform (Fin 1)) n0 n0 MM MC RD ltac:(lia) IS IE IV IW II ltac:(unfold small; lia) ltac:(unfold small; lia) Ty ltac:(unfold overlaps; lia) FU) as (p & q & P & Q & F & B).
  exists (Cmf cx cy cz), p. split; [unfold cie_1931_2_degree; rewrite Cx; cbn [obind]; rewrite Cy; cbn [obind]; rewrite Cz; reflexivity|]. split; [exact P|]. split; [exact F|].
  unfold e in Q. rewrite exact_nit in Q by (try assumption; lia). injection Q as <-. eapply Rle_trans; [exact B|]. lra.
Qed.

(* one unit of power at each of 550, 555 and 560 nm *)
Definition green3 : vspd f64 := Vspd (map (fun k => Sample (b_of_Z 53 1024 (550 + Z.of_nat k * 5)) (b_of_Z 53 1024 1)) (seq 0 3)) (SpdShape (b_of_Z 53 1024 550) (b_of_Z 53 1024 560) (Uniform (b_of_Z 53 1024 5))).
Example C117_example : XConstOk K -> exists cm p, @cie_1931_2_degree _ ops = Ret cm /\ @spd_to_nit _ ops true 10 green3 cm = Ret p /\ is_finite p = true /\ Rabs (B2R p - 680.71197) <= / 10000.
Proof.
  intro OK. assert (M1 : mid 1). { split; [change 1 with (bpow radix2 0); apply bpow_le; lia|change 1 with (bpow radix2 0); apply bpow_le; lia]. }
  set (d := map (fun k => ((550 + Z.of_nat k * 5)%Z, 1)) (seq 0 3)).
  assert (RD : rel 1 1 d (v_samples green3)).
  { destruct u53 as [U0 U1]. assert (N1 : forall z, (Z.abs z <= 1000000000)%Z -> near 1 1 (z, 1) (Sample (b_of_Z 53 1024 z) (b_of_Z 53 1024 1))).
    { intros y Hy. split; [apply isZ_of, Hy|]. destruct (isZ_of 1%Z ltac:(lia)) as (F1 & E1). cbn [snd s_v]. split; [exact F1|]. rewrite E1, Rabs_R1, Rminus_diag_eq, Rabs_R0 by reflexivity. split; lra. }
    unfold rel, d, green3. cbn [v_samples seq map]. do 3 (apply Forall2_cons; [apply N1; lia|]). apply Forall2_nil. }
  destruct (C117_builtin true 10 1 green3 d 550 5 (b_of_Z 53 1024 5) OK M1 RD ltac:(cbn; lia) (isZ_of 550 ltac:(lia)) (isZ_of 560 ltac:(lia)) eq_refl (isZ_of 5 ltac:(lia)) ltac:(lia) ltac:(lia) ltac:(cbn; lia) ltac:(cbn; lia)) as (cm & p & E1 & E2 & F & B).
  exists cm, p. split; [exact E1|]. split; [exact E2|]. split; [exact F|].
  assert (V : Rabs (nit d 550 5 - 680.71197) <= / 100000).
  { unfold nit, d. rewrite map_length, seq_length. cbn [seq map nth snd fold_right]. change (550 + Z.of_nat 0 * 5)%Z with 550%Z. change (550 + Z.of_nat 1 * 5)%Z with 555%Z. change (550 + Z.of_nat 2 * 5)%Z with 560%Z.
    assert (A0 : efficacy 550 = 0.9949501) by (unfold efficacy; match goal with |- Q2R ?q = _ => let q' := eval vm_compute in q in change (Q2R q' = 0.9949501) end; clear; q2r; lra). assert (A1 : efficacy 555 = 1.0) by (unfold efficacy; match goal with |- Q2R ?q = _ => let q' := eval vm_compute in q in change (Q2R q' = 1.0) end; clear; q2r; lra). assert (A2 : efficacy 560 = 0.995) by (unfold efficacy; match goal with |- Q2R ?q = _ => let q' := eval vm_compute in q in change (Q2R q' = 0.995) end; clear; q2r; lra). rewrite A0, A1, A2. clear. cbn [INR]. apply Rabs_le. q2r. lra. }
  replace (B2R p - 680.71197) with ((B2R p - nit d 550 5) + (nit d 550 5 - 680.71197)) by ring. eapply Rle_trans; [apply Rabs_triang|]. lra.
Qed.
End F.
