(* Facts about the IEEE instance: order, clamping, quantisation, commutativity, conversion. *)
From Coq Require Import Reals ZArith QArith Qreals Lra Lia Bool List.
From Flocq Require Import Core BinarySingleNaN.
From Verif Require Import RealOps MathModel ColorModel FloatInst.
Open Scope R_scope.

Section FP.
Context (prec emax : Z) {Hp : Prec_gt_0 prec} {He : Prec_lt_emax prec emax}.
Notation fl := (binary_float prec emax).
Notation fexp := (SpecFloat.fexp prec emax).
Notation rnd := (round radix2 fexp ZnearestE).

(* ---- order on the non-NaN floats ---- *)
(* the infinities sit at +-2^emax, beyond every finite float *)
Definition ev (x : fl) : R :=
  match x with
  | B754_infinity true => - bpow radix2 emax
  | B754_infinity false => bpow radix2 emax
  | _ => B2R x
  end.

Lemma ev_fin x : is_finite x = true -> ev x = B2R x.
Proof. destruct x; try discriminate; reflexivity. Qed.
Lemma ev_bound x : is_finite x = true -> - bpow radix2 emax < ev x < bpow radix2 emax.
Proof.
  intro H. rewrite ev_fin by exact H. pose proof (abs_B2R_lt_emax prec emax x) as A.
  apply Rabs_def2 in A. lra.
Qed.
Lemma bpow_emax_pos : 0 < bpow radix2 emax. Proof. apply bpow_gt_0. Qed.

Lemma ev_compare (x y : fl) : is_nan x = false -> is_nan y = false ->
  Bcompare x y = Some (Rcompare (ev x) (ev y)).
Proof.
  intros Nx Ny. pose proof bpow_emax_pos as P.
  destruct (is_finite x) eqn:Fx; destruct (is_finite y) eqn:Fy.
  - rewrite !ev_fin by assumption. apply Bcompare_correct; assumption.
  - pose proof (ev_bound x Fx) as B. destruct y as [|s| |]; try discriminate.
    replace (Bcompare x (B754_infinity s)) with (Some (if s then Gt else Lt))
      by (destruct x as [[]| | |[] ? ? ?]; try discriminate; destruct s; reflexivity).
    f_equal. symmetry. destruct s; cbn [ev]; [apply Rcompare_Gt|apply Rcompare_Lt]; lra.
  - pose proof (ev_bound y Fy) as B. destruct x as [|s| |]; try discriminate.
    replace (Bcompare (B754_infinity s) y) with (Some (if s then Lt else Gt))
      by (destruct y as [[]| | |[] ? ? ?]; try discriminate; destruct s; reflexivity).
    f_equal. symmetry. destruct s; cbn [ev]; [apply Rcompare_Lt|apply Rcompare_Gt]; lra.
  - destruct x as [|s| |]; try discriminate. destruct y as [|t| |]; try discriminate.
    destruct s, t; cbn [ev]; unfold Bcompare; cbn; f_equal; symmetry.
    + apply Rcompare_Eq; reflexivity.
    + apply Rcompare_Lt; lra.
    + apply Rcompare_Gt; lra.
    + apply Rcompare_Eq; reflexivity.
Qed.

Lemma ev_ltb x y : is_nan x = false -> is_nan y = false -> Bltb x y = Rlt_bool (ev x) (ev y).
Proof.
  intros Nx Ny. pose proof (ev_compare x y Nx Ny) as C. unfold Bltb, SpecFloat.SFltb, Bcompare in *.
  rewrite C. destruct (Rcompare_spec (ev x) (ev y)), (Rlt_bool_spec (ev x) (ev y)); try reflexivity; lra.
Qed.
Lemma ev_leb x y : is_nan x = false -> is_nan y = false -> Bleb x y = Rle_bool (ev x) (ev y).
Proof.
  intros Nx Ny. pose proof (ev_compare x y Nx Ny) as C. unfold Bleb, SpecFloat.SFleb, Bcompare in *.
  rewrite C. destruct (Rcompare_spec (ev x) (ev y)), (Rle_bool_spec (ev x) (ev y)); try reflexivity; lra.
Qed.
Lemma ltb_nan_l y : Bltb (B754_nan : fl) y = false.
Proof. destruct y; reflexivity. Qed.
Lemma ltb_nan_r x : Bltb x (B754_nan : fl) = false.
Proof. destruct x as [|[]| |[]]; reflexivity. Qed.
Lemma leb_nan_l y : Bleb (B754_nan : fl) y = false.
Proof. destruct y; reflexivity. Qed.
Lemma leb_nan_r x : Bleb x (B754_nan : fl) = false.
Proof. destruct x as [|[]| |[]]; reflexivity. Qed.
Lemma is_nan_eq x : is_nan x = true -> x = (B754_nan : fl).
Proof. destruct x; try discriminate; reflexivity. Qed.
Lemma leb_true x y : Bleb x y = true -> is_nan x = false /\ is_nan y = false /\ ev x <= ev y.
Proof.
  intro H. assert (Nx : is_nan x = false).
  { destruct (is_nan x) eqn:N; [|reflexivity]. apply is_nan_eq in N. subst. rewrite leb_nan_l in H. discriminate. }
  assert (Ny : is_nan y = false).
  { destruct (is_nan y) eqn:N; [|reflexivity]. apply is_nan_eq in N. subst. rewrite leb_nan_r in H. discriminate. }
  repeat split; try assumption. rewrite ev_leb in H by assumption.
  destruct (Rle_bool_spec (ev x) (ev y)); [assumption|discriminate].
Qed.
Lemma ltb_true x y : Bltb x y = true -> is_nan x = false /\ is_nan y = false /\ ev x < ev y.
Proof.
  intro H. assert (Nx : is_nan x = false).
  { destruct (is_nan x) eqn:N; [|reflexivity]. apply is_nan_eq in N. subst. rewrite ltb_nan_l in H. discriminate. }
  assert (Ny : is_nan y = false).
  { destruct (is_nan y) eqn:N; [|reflexivity]. apply is_nan_eq in N. subst. rewrite ltb_nan_r in H. discriminate. }
  repeat split; try assumption. rewrite ev_ltb in H by assumption.
  destruct (Rlt_bool_spec (ev x) (ev y)); [assumption|discriminate].
Qed.
Lemma leb_intro x y : is_nan x = false -> is_nan y = false -> ev x <= ev y -> Bleb x y = true.
Proof. intros. rewrite ev_leb by assumption. apply Rle_bool_true. assumption. Qed.
Lemma ltb_false_ev x y : is_nan x = false -> is_nan y = false -> Bltb x y = false -> ev y <= ev x.
Proof.
  intros Nx Ny H. rewrite ev_ltb in H by assumption.
  destruct (Rlt_bool_spec (ev x) (ev y)); [discriminate|assumption].
Qed.

(* ---- rounding error ---- *)
Lemma rnd_err y M : 1 <= M -> Rabs y <= M -> Rabs (rnd y - y) <= M * bpow radix2 (- prec).
Proof.
  intros HM Hy. pose proof (prec_pos prec). pose proof (prec_emax prec emax).
  pose proof (error_le_half_ulp radix2 fexp (fun x => negb (Z.even x)) y) as E.
  assert (U : ulp radix2 fexp y <= ulp radix2 fexp M).
  { apply ulp_le; auto with typeclass_instances. rewrite (Rabs_right M) by lra. exact Hy. }
  assert (V : ulp radix2 fexp M <= Rabs M * bpow radix2 (1 - prec)).
  { apply (ulp_FLT_le radix2 (SpecFloat.emin prec emax) prec). rewrite (Rabs_right M) by lra.
    apply Rle_trans with (bpow radix2 0); [|exact HM]. apply bpow_le. unfold SpecFloat.emin. lia. }
  rewrite (Rabs_right M) in V by lra.
  replace (1 - prec)%Z with (1 + - prec)%Z in V by lia. rewrite bpow_plus in V.
  change (bpow radix2 1) with 2 in V. lra.
Qed.

(* ---- clamp to [0,1] and quantise ---- *)
Definition cl (x : fl) : R := Rmax 0 (Rmin 1 (ev x)).

Context (L : libm fl) (lit : Q -> fl).
Notation ops := (b_ops prec emax L lit).

Lemma lit0 : (B2R (b_of_Q prec emax 0.0) = 0 /\ is_finite (b_of_Q prec emax 0.0) = true).
Proof. apply (b_of_Q_int prec emax 0.0 0); [unfold Q2R; cbn; lra|cbn; apply Z.pow_nonneg; lia]. Qed.
Lemma lit1 : (B2R (b_of_Q prec emax 1.0) = 1 /\ is_finite (b_of_Q prec emax 1.0) = true).
Proof.
  apply (b_of_Q_int prec emax 1.0 1); [unfold Q2R; cbn; lra|].
  pose proof (prec_pos prec). cbn. assert (1 < 2 ^ prec)%Z by (apply Z.pow_gt_1; lia). lia.
Qed.
Lemma bpow_emax_ge2 : 2 <= bpow radix2 emax.
Proof. change 2 with (bpow radix2 1). apply bpow_le. pose proof (prec_pos prec). pose proof (prec_emax prec emax). lia. Qed.

Lemma clamp01 x : is_nan x = false ->
  let c := @clamp _ ops x (b_of_Q prec emax 0.0) (b_of_Q prec emax 1.0) in
  is_finite c = true /\ B2R c = cl x.
Proof.
  intros N c. unfold c, clamp. cbn [rlt rlitd b_ops]. destruct lit0 as [z0 f0]. destruct lit1 as [z1 f1].
  assert (n0 : is_nan (b_of_Q prec emax 0.0) = false) by (destruct (b_of_Q prec emax 0.0); try discriminate f0; reflexivity).
  assert (n1 : is_nan (b_of_Q prec emax 1.0) = false) by (destruct (b_of_Q prec emax 1.0); try discriminate f1; reflexivity).
  rewrite !ev_ltb by assumption. rewrite !(ev_fin (b_of_Q _ _ _)) by assumption. rewrite z0, z1.
  unfold cl. pose proof bpow_emax_ge2 as B.
  destruct (Rlt_bool_spec (ev x) 0).
  - split; [assumption|]. rewrite z0. rewrite Rmin_right, Rmax_left by lra. reflexivity.
  - destruct (Rlt_bool_spec 1 (ev x)).
    + split; [assumption|]. rewrite z1. rewrite Rmin_left, Rmax_right by lra. reflexivity.
    + assert (F : is_finite x = true).
      { destruct x as [|[]| |]; try reflexivity; try discriminate; cbn [ev] in *; lra. }
      split; [exact F|]. rewrite ev_fin in * by exact F. rewrite Rmin_right, Rmax_right by lra. reflexivity.
Qed.

Lemma cl_01 x : 0 <= cl x <= 1.
Proof. unfold cl. split; [apply Rmax_l|]. apply Rmax_lub; [lra|apply Rmin_l]. Qed.

Lemma int_lit N : (0 < N <= 2 ^ prec)%Z ->
  B2R (b_of_Q prec emax (inject_Z N)) = IZR N /\ is_finite (b_of_Q prec emax (inject_Z N)) = true.
Proof. intro H. apply b_of_Q_int; [unfold Q2R; cbn; field|lia]. Qed.

Lemma rnd_int z : (Z.abs z <= 2 ^ prec)%Z -> rnd (IZR z) = IZR z.
Proof. intro H. apply round_generic; auto with typeclass_instances. apply int_format; assumption. Qed.

Lemma quantize_spec N x : (0 < N <= 2 ^ prec)%Z -> is_nan x = false ->
  @quantize _ ops N x = ZnearestA (rnd (cl x * IZR N)) /\ 0 <= rnd (cl x * IZR N) <= IZR N.
Proof.
  intros HN Nx. destruct (clamp01 x Nx) as [fc vc]. destruct (int_lit N HN) as [vN fN].
  pose proof (cl_01 x) as C.
  assert (P : 0 < IZR N) by (apply IZR_lt; lia).
  assert (RB : 0 <= rnd (cl x * IZR N) <= IZR N).
  { split.
    - rewrite <- (rnd_int 0) by (cbn; apply Z.pow_nonneg; lia). apply rnd_le; [exact Hp|].
      apply Rmult_le_pos; lra.
    - rewrite <- (rnd_int N) at 2 by lia. apply rnd_le; [exact Hp|]. nra. }
  split; [|exact RB].
  unfold quantize. cbn [ras_uint rround rmul rlitd b_ops].
  cbv zeta in fc, vc. set (c := clamp x _ _) in *.
  pose proof (Bmult_correct prec emax _ _ mode_NE c (b_of_Q prec emax (inject_Z N))) as M.
  cbn [round_mode] in M. rewrite vc, vN in M. rewrite Rlt_bool_true in M.
  - destruct M as (M1 & M2 & _). rewrite fc, fN in M2. cbn [andb] in M2.
    set (p := Bmult mode_NE c _) in *.
    destruct (bround_spec prec emax p) as [R1 R2]. rewrite M2 in R2. rewrite M1 in R1.
    set (r := Bnearbyint mode_NA p) in *.
    assert (E : b_as_uint prec emax N r = Z.min (Z.max (Btrunc r) 0) N)
      by (destruct r; try discriminate R2; reflexivity).
    rewrite E, btrunc_spec, R1, Ztrunc_IZR by exact He.
    set (k := ZnearestA _).
    assert (0 <= k <= N)%Z.
    { split.
      - unfold k. apply Z.le_trans with (ZnearestA (IZR 0)); [rewrite (@Zrnd_IZR ZnearestA _ 0); apply Z.le_refl|apply (@Zrnd_le ZnearestA _); tauto].
      - unfold k. apply Z.le_trans with (ZnearestA (IZR N)); [apply (@Zrnd_le ZnearestA _); tauto|rewrite (@Zrnd_IZR ZnearestA _ N); apply Z.le_refl]. }
    lia.
  - rewrite Rabs_right by lra. apply Rle_lt_trans with (IZR N); [lra|].
    rewrite <- (Rabs_right (IZR N)) by lra. apply (int_lt_emax prec emax). lia.
Qed.

Lemma quantize_nan N : @quantize _ ops N B754_nan = 0%Z.
Proof.
  unfold quantize, clamp. cbn [ras_uint rround rmul rlitd rlt b_ops].
  rewrite ltb_nan_l, ltb_nan_r.
  assert (E : Bmult mode_NE B754_nan (b_of_Q prec emax (inject_Z N)) = B754_nan)
    by (destruct (b_of_Q prec emax (inject_Z N)); reflexivity).
  rewrite E. reflexivity.
Qed.

Lemma quantize_range N x : (0 < N <= 2 ^ prec)%Z -> (0 <= @quantize _ ops N x <= N)%Z.
Proof.
  intro HN. destruct (is_nan x) eqn:Nx.
  - rewrite (is_nan_eq x Nx), quantize_nan. lia.
  - destruct (quantize_spec N x HN Nx) as [E B]. rewrite E. split.
    + apply Z.le_trans with (ZnearestA (IZR 0)); [rewrite (@Zrnd_IZR ZnearestA _ 0); apply Z.le_refl|apply (@Zrnd_le ZnearestA _); tauto].
    + apply Z.le_trans with (ZnearestA (IZR N)); [apply (@Zrnd_le ZnearestA _); tauto|rewrite (@Zrnd_IZR ZnearestA _ N); apply Z.le_refl].
Qed.

Lemma quantize_low N x : (0 < N <= 2 ^ prec)%Z -> is_nan x = false -> ev x <= 0 ->
  @quantize _ ops N x = 0%Z.
Proof.
  intros HN Nx H. destruct (quantize_spec N x HN Nx) as [E _]. rewrite E.
  assert (C : cl x = 0) by (unfold cl; rewrite Rmin_right, Rmax_left by lra; reflexivity).
  rewrite C, Rmult_0_l, round_0 by auto with typeclass_instances. apply (@Zrnd_IZR ZnearestA _ 0).
Qed.
Lemma quantize_high N x : (0 < N <= 2 ^ prec)%Z -> is_nan x = false -> 1 <= ev x ->
  @quantize _ ops N x = N.
Proof.
  intros HN Nx H. destruct (quantize_spec N x HN Nx) as [E _]. rewrite E.
  assert (C : cl x = 1) by (unfold cl; rewrite Rmin_left, Rmax_right by lra; reflexivity).
  rewrite C, Rmult_1_l, rnd_int by lia. apply (@Zrnd_IZR ZnearestA _ N).
Qed.
Lemma quantize_near N x : (0 < N <= 2 ^ prec)%Z -> is_finite x = true -> 0 <= B2R x <= 1 ->
  Rabs (IZR (@quantize _ ops N x) - B2R x * IZR N) <= 1 / 2 + IZR N * bpow radix2 (- prec).
Proof.
  intros HN Fx H. assert (Nx : is_nan x = false) by (destruct x; try discriminate; reflexivity).
  destruct (quantize_spec N x HN Nx) as [E _]. rewrite E.
  assert (C : cl x = B2R x) by (unfold cl; rewrite ev_fin, Rmin_right, Rmax_right by (assumption || lra); reflexivity).
  rewrite C. assert (1 <= IZR N) by (apply IZR_le; lia).
  assert (A : Rabs (rnd (B2R x * IZR N) - B2R x * IZR N) <= IZR N * bpow radix2 (- prec)).
  { apply rnd_err; [assumption|]. rewrite Rabs_right; nra. }
  pose proof (Znearest_half (Z.leb 0) (rnd (B2R x * IZR N))) as Hh.
  rewrite Rabs_minus_sym in Hh.
  replace (IZR (ZnearestA (rnd (B2R x * IZR N))) - B2R x * IZR N) with
    ((IZR (ZnearestA (rnd (B2R x * IZR N))) - rnd (B2R x * IZR N)) + (rnd (B2R x * IZR N) - B2R x * IZR N)) by ring.
  eapply Rle_trans; [apply Rabs_triang|]. change (Znearest (Z.leb 0)) with ZnearestA in Hh.
  change (/ 2) with (/ 2) in Hh. lra.
Qed.

Lemma cl_mono x y : ev x <= ev y -> cl x <= cl y.
Proof.
  intro H. unfold cl. apply Rmax_lub; [apply Rmax_l|].
  apply Rle_trans with (Rmin 1 (ev y)); [|apply Rmax_r].
  apply Rmin_glb; [apply Rmin_l|]. apply Rle_trans with (ev x); [apply Rmin_r|exact H].
Qed.
Lemma quantize_mono N x y : (0 < N <= 2 ^ prec)%Z -> Bleb x y = true ->
  (@quantize _ ops N x <= @quantize _ ops N y)%Z.
Proof.
  intros HN H. destruct (leb_true x y H) as (Nx & Ny & Le).
  destruct (quantize_spec N x HN Nx) as [Ex _]. destruct (quantize_spec N y HN Ny) as [Ey _].
  rewrite Ex, Ey. apply (@Zrnd_le ZnearestA _). apply (rnd_le prec emax).
  apply Rmult_le_compat_r; [apply IZR_le; lia|]. apply cl_mono, Le.
Qed.

(* a value close to k/N quantises to k *)
Lemma quantize_close N k x : (0 < N <= 2 ^ prec)%Z -> (0 <= k <= N)%Z -> is_finite x = true ->
  Rabs (B2R x * IZR N - IZR k) <= 1 / 4 -> IZR N * bpow radix2 (- prec) <= 1 / 8 ->
  @quantize _ ops N x = k.
Proof.
  intros HN Hk Fx Hx HP. assert (Nx : is_nan x = false) by (destruct x; try discriminate; reflexivity).
  destruct (quantize_spec N x HN Nx) as [E _]. rewrite E.
  assert (N1 : 1 <= IZR N) by (apply IZR_le; lia).
  assert (K0 : 0 <= IZR k) by (apply IZR_le; lia). assert (K1 : IZR k <= IZR N) by (apply IZR_le; lia).
  pose proof (cl_01 x) as C01.
  assert (C : Rabs (cl x * IZR N - IZR k) <= 1 / 4).
  { apply Rabs_le_inv in Hx. apply Rabs_le. unfold cl. rewrite ev_fin by exact Fx.
    unfold Rmax, Rmin. destruct (Rle_dec 1 (B2R x)); destruct (Rle_dec _ _); nra. }
  apply Znearest_imp. change (/ 2) with (/ 2).
  assert (A : Rabs (rnd (cl x * IZR N) - cl x * IZR N) <= IZR N * bpow radix2 (- prec)).
  { apply rnd_err; [assumption|]. rewrite Rabs_right; nra. }
  apply Rabs_le_inv in C. apply Rabs_le_inv in A. apply Rabs_def1; lra.
Qed.

Lemma dequantize_spec N k : (0 < N <= 2 ^ prec)%Z -> (0 <= k <= N)%Z ->
  is_finite (@dequantize _ ops N k) = true /\ B2R (@dequantize _ ops N k) = rnd (IZR k / IZR N) /\
  0 <= rnd (IZR k / IZR N) <= 1.
Proof.
  intros HN Hk. unfold dequantize. cbn [rdiv rof_Z rlitd b_ops].
  destruct (int_lit N HN) as [vN fN]. destruct (b_of_Z_exact prec emax k) as (vk & fk & _); [lia|].
  assert (N1 : 1 <= IZR N) by (apply IZR_le; lia).
  assert (K0 : 0 <= IZR k) by (apply IZR_le; lia). assert (K1 : IZR k <= IZR N) by (apply IZR_le; lia).
  assert (Q : 0 <= IZR k / IZR N <= 1).
  { split; [apply Rmult_le_pos; [lra|apply Rlt_le, Rinv_0_lt_compat; lra]|].
    apply (Rmult_le_reg_r (IZR N)); [lra|]. unfold Rdiv. rewrite Rmult_assoc, Rinv_l by lra. lra. }
  assert (P1 : (1 <= 2 ^ prec)%Z) by (pose proof (prec_pos prec); assert (0 < 2 ^ prec)%Z by (apply Z.pow_pos_nonneg; lia); lia).
  assert (RQ : 0 <= rnd (IZR k / IZR N) <= 1).
  { split.
    - apply Rle_trans with (rnd (IZR 0)); [rewrite rnd_int by (cbn; lia); lra|apply rnd_le; [exact Hp|lra]].
    - apply Rle_trans with (rnd (IZR 1)); [apply rnd_le; [exact Hp|lra]|rewrite rnd_int by (cbn; lia); lra]. }
  pose proof (Bdiv_correct prec emax _ _ mode_NE (b_of_Z prec emax k) (b_of_Q prec emax (inject_Z N))) as D.
  cbn [round_mode] in D. rewrite vk, vN in D. specialize (D ltac:(lra)).
  rewrite Rlt_bool_true in D.
  - destruct D as (D1 & D2 & _). rewrite D2. repeat split; try assumption; lra.
  - rewrite Rabs_right by lra. pose proof bpow_emax_ge2. lra.
Qed.

Lemma dequantize_err N k : (0 < N <= 2 ^ prec)%Z -> (0 <= k <= N)%Z ->
  Rabs (B2R (@dequantize _ ops N k) * IZR N - IZR k) <= IZR N * bpow radix2 (- prec).
Proof.
  intros HN Hk. destruct (dequantize_spec N k HN Hk) as (_ & E & _). rewrite E.
  assert (N1 : 1 <= IZR N) by (apply IZR_le; lia).
  assert (K0 : 0 <= IZR k) by (apply IZR_le; lia). assert (K1 : IZR k <= IZR N) by (apply IZR_le; lia).
  assert (A : Rabs (rnd (IZR k / IZR N) - IZR k / IZR N) <= 1 * bpow radix2 (- prec)).
  { apply rnd_err; [lra|]. rewrite Rabs_right.
    - apply (Rmult_le_reg_r (IZR N)); [lra|]. unfold Rdiv. rewrite Rmult_assoc, Rinv_l by lra. lra.
    - apply Rle_ge, Rmult_le_pos; [lra|apply Rlt_le, Rinv_0_lt_compat; lra]. }
  replace (rnd (IZR k / IZR N) * IZR N - IZR k) with ((rnd (IZR k / IZR N) - IZR k / IZR N) * IZR N) by (field; lra).
  rewrite Rabs_mult, (Rabs_right (IZR N)) by lra. rewrite Rmult_comm. apply Rmult_le_compat_l; lra.
Qed.

Lemma roundtrip N k : (0 < N <= 2 ^ prec)%Z -> (0 <= k <= N)%Z ->
  IZR N * bpow radix2 (- prec) <= 1 / 8 -> @quantize _ ops N (@dequantize _ ops N k) = k.
Proof.
  intros HN Hk HP. apply quantize_close; try assumption.
  - apply dequantize_spec; assumption.
  - pose proof (dequantize_err N k HN Hk). lra.
Qed.

(* ---- bitwise commutativity ---- *)
Lemma Bplus_comm (x y : fl) : Bplus mode_NE x y = Bplus mode_NE y x.
Proof.
  destruct x as [sx|sx| |sx mx ex Bx], y as [sy|sy| |sy my ey By]; try reflexivity;
    cbn [Bplus]; try (destruct sx, sy; reflexivity).
  rewrite (Z.min_comm ey ex). unfold Fplus_naive. rewrite Z.add_comm. reflexivity.
Qed.
Lemma Bmult_comm (x y : fl) : Bmult mode_NE x y = Bmult mode_NE y x.
Proof.
  destruct x as [sx|sx| |sx mx ex Bx], y as [sy|sy| |sy my ey By]; try reflexivity;
    cbn [Bmult]; try (destruct sx, sy; reflexivity).
  apply B2SF_inj. rewrite !B2SF_SF2B. rewrite xorb_comm, Pos.mul_comm, Z.add_comm. reflexivity.
Qed.

(* x / x = 1 *)
Lemma Bdiv_self (x : fl) : is_finite x = true -> B2R x <> 0 -> Bdiv mode_NE x x = Bone.
Proof.
  intros Fx Nx. pose proof (Bdiv_correct prec emax _ _ mode_NE x x Nx) as D. cbn [round_mode] in D.
  replace (B2R x / B2R x) with (IZR 1) in D by (field; exact Nx).
  assert (P1 : (1 <= 2 ^ prec)%Z) by (pose proof (prec_pos prec); assert (0 < 2 ^ prec)%Z by (apply Z.pow_pos_nonneg; lia); lia).
  rewrite rnd_int in D by (cbn; lia). rewrite Rabs_R1 in D.
  rewrite Rlt_bool_true in D by (pose proof bpow_emax_ge2; lra).
  destruct D as (D1 & D2 & _). apply B2R_inj.
  - destruct (Bdiv mode_NE x x); try (rewrite Fx in D2; discriminate D2); [cbn in D1; lra|reflexivity].
  - apply is_finite_strict_Bone.
  - rewrite D1, Bone_correct. reflexivity.
Qed.
End FP.
