(* C110: chromaticity coordinates and tristimulus values, there and back in floating point *)
From Coq Require Import Reals ZArith QArith Qreals Lra Lia Bool List.
From Flocq Require Import Core BinarySingleNaN.
From Verif Require Import Outcome RealOps MathModel ColorModel XReal FloatInst FloatProofs ErrProofs RelErr CurveProofs PropCurve PropDaylight.
Open Scope R_scope.
Local Notation f64 := (binary_float 53 1024).
Local Notation f32 := (binary_float 24 128).

Section Fmt.
Context (prec emax : Z) {Hp : Prec_gt_0 prec} {He : Prec_lt_emax prec emax}.
Notation fl := (binary_float prec emax).
Notation u := (bpow radix2 (- prec)).
Notation eta := (bpow radix2 (2 - emax - prec)).
Context (P5 : (24 <= prec)%Z) (E5 : (128 <= emax)%Z).
Notation speck := (bpow radix2 (-100)).
Lemma speck_val : speck = / 1267650600228229401496703205376. Proof. reflexivity. Qed.
Lemma eta_speck : 0 < eta <= u * (speck * / 1000000).
Proof.
  split; [apply bpow_gt_0|]. replace (2 - emax - prec)%Z with (- prec + (2 - emax))%Z by ring. rewrite bpow_plus. apply Rmult_le_compat_l; [apply bpow_ge_0|]. apply Rle_trans with (bpow radix2 (-100 + -20)); [apply bpow_le; lia|]. rewrite bpow_plus. apply Rmult_le_compat_l; [apply bpow_ge_0|]. change (/ 1048576 <= / 1000000). apply Rinv_le; lra.
Qed.
Lemma vast_big : 100000000000000000 <= bpow radix2 60. Proof. rewrite vast_val. lra. Qed.

(* v is V, of magnitude at most M, up to e half-units of M *)
Definition near (M e : R) (v : fl) (V : R) : Prop := is_finite v = true /\ Rabs (B2R v - V) <= e * u * M /\ Rabs V <= M.
Lemma near_self (v : fl) M : is_finite v = true -> Rabs (B2R v) <= M -> near M 0 v (B2R v).
Proof. intros F H. split; [exact F|]. split; [|exact H]. replace (B2R v - B2R v) with 0 by ring. rewrite Rabs_R0. lra. Qed.
Lemma near_round M e (v : fl) V w W : 0 <= e <= 20 -> 0 <= M -> Rabs (w - W) <= e * u * M -> Rabs W <= M -> speck <= M -> is_finite v = true -> Rabs (B2R v - w) <= u * Rabs w + eta -> V = W -> near M (e + 1.01) v V.
Proof.
  intros E M0 H B SP F R ->. destruct (CurveProofs.u24 prec P5) as [U0 U]. destruct eta_speck as [T0 T]. split; [exact F|]. split; [|exact B].
  assert (UM : 0 <= u * M <= / 10000000 * M) by (split; [apply Rmult_le_pos; lra|apply Rmult_le_compat_r; lra]). assert (EM : 0 <= e * (u * M) <= 20 * (u * M)) by (split; [apply Rmult_le_pos; lra|apply Rmult_le_compat_r; lra]).
  assert (A : Rabs w <= 1.00001 * M) by (replace w with ((w - W) + W) by ring; eapply Rle_trans; [apply Rabs_triang|]; lra). pose proof (Rmult_le_compat_l u _ _ (Rlt_le _ _ U0) A) as A'. pose proof (Rmult_le_compat_l u _ _ (Rlt_le _ _ U0) SP) as SM.
  replace (B2R v - W) with ((B2R v - w) + (w - W)) by ring. eapply Rle_trans; [apply Rabs_triang|]. lra.
Qed.
Lemma near_bound M e (v : fl) V : near M e v V -> 0 <= e <= 20 -> 0 <= M -> Rabs (B2R v) <= 1.00001 * M.
Proof.
  intros (_ & H & B) E M0. destruct (CurveProofs.u24 prec P5) as [U0 U].
  assert (UM : 0 <= u * M <= / 10000000 * M) by (split; [apply Rmult_le_pos; lra|apply Rmult_le_compat_r; lra]). assert (EM : 0 <= e * (u * M) <= 20 * (u * M)) by (split; [apply Rmult_le_pos; lra|apply Rmult_le_compat_r; lra]).
  replace (B2R v) with ((B2R v - V) + V) by ring. eapply Rle_trans; [apply Rabs_triang|]. lra.
Qed.
Lemma near_mul M e (v k : fl) V : near M e v V -> is_finite k = true -> 0 < B2R k -> 0 <= e <= 20 -> 0 <= M -> speck <= M * B2R k <= 100000000000000000 -> near (M * B2R k) (e + 1.01) (Bmult mode_NE v k) (V * B2R k).
Proof.
  intros N Fk K0 E M0 S. pose proof (near_bound _ _ _ _ N E M0) as NB. destruct N as (F & H & B). pose proof vast_big.
  assert (A : Rabs (B2R v * B2R k) <= 1.00001 * (M * B2R k)) by (rewrite Rabs_mult, (Rabs_pos_eq (B2R k)), <- Rmult_assoc by lra; apply Rmult_le_compat_r; lra). pose proof (vast_val) as VV.
  destruct (gmul prec emax P5 E5 v k F Fk ltac:(lra)) as [G Q]. apply (near_round _ e _ _ (B2R v * B2R k) (V * B2R k)); try assumption; try lra.
  - apply Rmult_le_pos; lra.
  - replace (B2R v * B2R k - V * B2R k) with ((B2R v - V) * B2R k) by ring. rewrite Rabs_mult, (Rabs_pos_eq (B2R k)), <- Rmult_assoc by lra. apply Rmult_le_compat_r; lra.
  - rewrite Rabs_mult, (Rabs_pos_eq (B2R k)) by lra. apply Rmult_le_compat_r; lra.
Qed.
Lemma near_div M e (v k : fl) V : near M e v V -> 0 < B2R k -> 0 <= e <= 20 -> 0 <= M -> speck <= M / B2R k <= 100000000000000000 -> near (M / B2R k) (e + 1.01) (Bdiv mode_NE v k) (V / B2R k).
Proof.
  intros N K0 E M0 S. pose proof (near_bound _ _ _ _ N E M0) as NB. destruct N as (F & H & B). assert (I0 : 0 < / B2R k) by (apply Rinv_0_lt_compat, K0).
  assert (A : Rabs (B2R v / B2R k) <= 1.00001 * (M / B2R k)) by (unfold Rdiv; rewrite Rabs_mult, (Rabs_pos_eq (/ B2R k)), <- Rmult_assoc by lra; apply Rmult_le_compat_r; lra). pose proof (vast_val) as VV.
  destruct (gdiv prec emax P5 E5 v k F ltac:(lra) ltac:(lra)) as [G Q]. apply (near_round _ e _ _ (B2R v / B2R k) (V / B2R k)); try assumption; try lra.
  - apply Rmult_le_pos; lra.
  - unfold Rdiv. replace (B2R v * / B2R k - V * / B2R k) with ((B2R v - V) * / B2R k) by ring. rewrite Rabs_mult, (Rabs_pos_eq (/ B2R k)), <- Rmult_assoc by lra. apply Rmult_le_compat_r; lra.
  - unfold Rdiv. rewrite Rabs_mult, (Rabs_pos_eq (/ B2R k)) by lra. apply Rmult_le_compat_r; lra.
Qed.
Lemma near_plus M e f (v w : fl) V W : near M e v V -> near M f w W -> 0 <= e -> 0 <= f -> e + f <= 20 -> speck <= M <= 10000000000000000 -> Rabs (V + W) <= M -> near M (e + f + 1.01) (Bplus mode_NE v w) (V + W).
Proof.
  intros N1 N2 E F EF S B. pose proof speck_val. assert (0 < speck) by apply bpow_gt_0. pose proof (near_bound _ _ _ _ N1 ltac:(lra) ltac:(lra)) as B1. pose proof (near_bound _ _ _ _ N2 ltac:(lra) ltac:(lra)) as B2. destruct N1 as (F1 & H1 & _). destruct N2 as (F2 & H2 & _). pose proof vast_val.
  destruct (gplus prec emax P5 E5 v w F1 F2) as [G Q]. { eapply Rle_trans; [apply Rabs_triang|]. lra. } apply (near_round _ (e + f) _ _ (B2R v + B2R w) (V + W)); try assumption; try lra.
  - replace (B2R v + B2R w - (V + W)) with ((B2R v - V) + (B2R w - W)) by ring. eapply Rle_trans; [apply Rabs_triang|]. lra.
  - eapply Rle_trans; [exact Q|]. pose proof eta_speck. lra.
Qed.
Lemma near_minus M e f (v w : fl) V W : near M e v V -> near M f w W -> 0 <= e -> 0 <= f -> e + f <= 20 -> speck <= M <= 10000000000000000 -> Rabs (V - W) <= M -> near M (e + f + 1.01) (Bminus mode_NE v w) (V - W).
Proof.
  intros N1 N2 E F EF S B. pose proof speck_val. assert (0 < speck) by apply bpow_gt_0. pose proof (near_bound _ _ _ _ N1 ltac:(lra) ltac:(lra)) as B1. pose proof (near_bound _ _ _ _ N2 ltac:(lra) ltac:(lra)) as B2. destruct N1 as (F1 & H1 & _). destruct N2 as (F2 & H2 & _). pose proof vast_val.
  destruct (gminus prec emax P5 E5 v w F1 F2) as [G Q]. { eapply Rle_trans; [apply Rabs_triang|]. rewrite Rabs_Ropp. lra. } apply (near_round _ (e + f) _ _ (B2R v - B2R w) (V - W)); try assumption; try lra.
  - replace (B2R v - B2R w - (V - W)) with ((B2R v - V) + - (B2R w - W)) by ring. eapply Rle_trans; [apply Rabs_triang|]. rewrite Rabs_Ropp. lra.
  - eapply Rle_trans; [exact Q|]. pose proof eta_speck. lra.
Qed.
Lemma near_wider M N e (v : fl) V : near M e v V -> 0 <= e -> M <= N -> near N e v V.
Proof. intros (F & H & B) E MN. destruct (CurveProofs.u24 prec P5) as [U0 U]. split; [exact F|]. split; [|lra]. eapply Rle_trans; [exact H|]. apply Rmult_le_compat_l; [apply Rmult_le_pos; lra|exact MN]. Qed.
Lemma near_eq M N e (v : fl) V W : near M e v V -> M = N -> V = W -> near N e v W.
Proof. intros H -> ->. exact H. Qed.
(* a scale and a value known up to a relative error d u *)
Lemma near_shift M N e d (v : fl) V W : near M e v V -> rel (d * u) M N -> Rabs (V - W) <= d * u * N -> Rabs W <= N -> 0 <= e <= 20 -> 0 <= d <= 20 -> 0 <= N -> near N (1.001 * e + d) v W.
Proof.
  intros (F & H & B) R D Wb E D0 N0. destruct (CurveProofs.u24 prec P5) as [U0 U]. split; [exact F|]. split; [|exact Wb]. apply rel_bounds in R.
  assert (UN : 0 <= u * N) by (apply Rmult_le_pos; lra). assert (DU : 0 <= d * u <= / 100000) by (split; [apply Rmult_le_pos; lra|]; apply Rle_trans with (20 * u); [apply Rmult_le_compat_r; lra|lra]).
  assert (DN : d * u * N <= / 100000 * N) by (apply Rmult_le_compat_r; lra). assert (EU : 0 <= e * u) by (apply Rmult_le_pos; lra). assert (M <= 1.001 * N) by lra. assert (e * u * M <= e * u * (1.001 * N)) by (apply Rmult_le_compat_l; lra).
  replace (B2R v - W) with ((B2R v - V) + (V - W)) by ring. eapply Rle_trans; [apply Rabs_triang|]. lra.
Qed.

Lemma quot_near (v s : fl) V W M e f : near M e v V -> near W f s W -> 0 <= e <= 15 -> 0 <= f <= 15 -> 0 < W -> 0 < M -> 0.0000000001 <= M / W <= 1000000000000000 ->
  near (M / W) (1.001 * (e + 1.01) + 1.01 * f) (Bdiv mode_NE v s) (V / W) /\ 0 < B2R s /\ rel (f * u) (B2R s) W.
Proof.
  intros N1 N2 E F W0 M0 S. destruct (CurveProofs.u24 prec P5) as [U0 U]. destruct N2 as (Fs & H2 & _). change (rel (f * u) (B2R s) W) in H2. assert (FU : 0 <= f * u <= / 100000) by (split; [apply Rmult_le_pos; lra|]; apply Rle_trans with (15 * u); [apply Rmult_le_compat_r; lra|lra]).
  pose proof (rel_pos (f * u) _ _ ltac:(lra) W0 H2) as S0. split; [|split; [exact S0|exact H2]]. pose proof (rel_inv (f * u) _ _ ltac:(lra) W0 H2) as RI. pose proof (Rabs_pos V) as V0. assert (VM : Rabs V <= M) by apply N1.
  assert (I0 : 0 < / W) by (apply Rinv_0_lt_compat, W0).
  assert (RM : rel (1.01 * f * u) (M / B2R s) (M / W)). { unfold rel, Rdiv in *. replace (M * / B2R s - M * / W) with (M * (/ B2R s - / W)) by ring. rewrite Rabs_mult, (Rabs_pos_eq M) by lra. replace (1.01 * f * u * (M * / W)) with (M * (1.01 * (f * u) * / W)) by ring. apply Rmult_le_compat_l; lra. }
  assert (RV : Rabs (V / B2R s - V / W) <= 1.01 * f * u * (M / W)). { unfold rel, Rdiv in *. replace (V * / B2R s - V * / W) with (V * (/ B2R s - / W)) by ring. rewrite Rabs_mult. replace (1.01 * f * u * (M * / W)) with (M * (1.01 * (f * u) * / W)) by ring. apply Rmult_le_compat; try apply Rabs_pos; assumption. }
  pose proof (rel_bounds _ _ _ RM) as B. assert (FM : 0 <= 1.01 * f * u * (M / W) <= 0.01 * (M / W)) by (split; [apply Rmult_le_pos; lra|apply Rmult_le_compat_r; lra]). pose proof speck_val as SV.
  apply (near_shift (M / B2R s) _ (e + 1.01) (1.01 * f) _ (V / B2R s)); try lra; try assumption.
  - apply near_div; try assumption; lra.
  - unfold Rdiv. rewrite Rabs_mult, (Rabs_pos_eq (/ W)) by lra. apply Rmult_le_compat_r; lra.
Qed.

Context (L : libm fl) (lit : Q -> fl) (LH : lit_exact prec emax lit 100.0%Q 100).
Notation ops := (b_ops prec emax L lit).
Lemma hundred_times M e (v : fl) V : near M e v V -> 0 <= e <= 20 -> 0.0000000001 <= M <= 100000000000000 -> near (M * 100) (e + 1.01) (Bmult mode_NE v (lit 100.0%Q)) (V * 100).
Proof. intros N E H. destruct LH as [F V1]. pose proof speck_val. pose proof (near_mul M e v _ V N F ltac:(lra) E ltac:(lra) ltac:(rewrite V1; lra)) as P. rewrite V1 in P. exact P. Qed.
Lemma hundred_over M e (v : fl) V : near M e v V -> 0 <= e <= 20 -> 0.0000000001 <= M <= 100000000000000000 -> near (M / 100) (e + 1.01) (Bdiv mode_NE v (lit 100.0%Q)) (V / 100).
Proof. intros N E H. destruct LH as [F V1]. pose proof speck_val. pose proof (near_div M e v (lit 100.0%Q) V N ltac:(lra) E ltac:(lra) ltac:(rewrite V1; lra)) as P. rewrite V1 in P. exact P. Qed.

Lemma there (x y Y : fl) : is_finite x = true -> is_finite y = true -> is_finite Y = true -> 0 <= B2R x -> 0.00001 <= B2R y -> B2R x + B2R y <= 1 -> 0.0001 <= B2R Y <= 1000000 ->
  exists x' y' Y', @xyy_from_xyz _ ops (@xyz_from_chromaticity _ ops (Xyy x y Y)) = Xyy x' y' Y' /\ near 1 20 x' (B2R x) /\ near (B2R y) 18 y' (B2R y) /\ near (B2R Y) 2.1 Y' (B2R Y).
Proof.
  intros Fx Fy FY Hx Hy Hxy HY. destruct (CurveProofs.u24 prec P5) as [U0 U]. pose proof speck_val as SV. set (rx := B2R x) in *. set (ry := B2R y) in *. set (rY := B2R Y) in *.
  unfold xyy_from_xyz, xyz_from_chromaticity, xyz_mul_s, xyz_div_s. cbn [xyy_x xyy_y xyy_Y xyz_x xyz_y xyz_z radd rsub rmul rdiv rone rlit b_ops].
  set (S := rY / ry). assert (I : 1 <= / ry <= 100000) by (split; [replace 1 with (/ 1) by lra|replace 100000 with (/ 0.00001) by lra]; apply Rinv_le; lra).
  assert (SR : rY <= S <= 100000000000). { unfold S, Rdiv. split; [rewrite <- (Rmult_1_r rY) at 1; apply Rmult_le_compat_l; lra|]. apply Rle_trans with (1000000 * 100000); [apply Rmult_le_compat; lra|lra]. }
  assert (SY : S * ry = rY) by (unfold S; field; lra).
  (* X *)
  assert (NX : near S 4.04 (Bdiv mode_NE (Bmult mode_NE (Bdiv mode_NE (Bmult mode_NE x Y) y) (lit 100.0%Q)) (lit 100.0%Q)) (S * rx)).
  { pose proof (near_self x 1 Fx ltac:(fold rx; rewrite Rabs_pos_eq; lra)) as N0. fold rx in N0. pose proof (near_mul 1 0 x Y rx N0 FY ltac:(fold rY; lra) ltac:(lra) ltac:(lra) ltac:(fold rY; lra)) as N1. fold rY in N1.
    pose proof (near_div _ _ _ y _ N1 ltac:(fold ry; lra) ltac:(lra) ltac:(lra)) as N2. fold ry in N2. replace (1 * rY / ry) with S in N2 by (unfold S; field; lra). specialize (N2 ltac:(lra)).
    pose proof (hundred_times _ _ _ _ N2 ltac:(lra) ltac:(lra)) as N3. pose proof (hundred_over _ _ _ _ N3 ltac:(lra) ltac:(lra)) as N4. replace 4.04 with (0 + 1.01 + 1.01 + 1.01 + 1.01) by lra. eapply near_eq; [exact N4|field|]. unfold S. field. lra. }
  assert (NY : near rY 2.02 (Bdiv mode_NE (Bmult mode_NE Y (lit 100.0%Q)) (lit 100.0%Q)) rY).
  { pose proof (near_self Y rY FY ltac:(fold rY; rewrite Rabs_pos_eq; lra)) as N0. fold rY in N0. pose proof (hundred_times _ _ _ _ N0 ltac:(lra) ltac:(lra)) as N1. pose proof (hundred_over _ _ _ _ N1 ltac:(lra) ltac:(lra)) as N2. replace 2.02 with (0 + 1.01 + 1.01) by lra. eapply near_eq; [exact N2|field|field]. }
  assert (NZ : near S 6.06 (Bdiv mode_NE (Bmult mode_NE (Bdiv mode_NE (Bmult mode_NE (Bminus mode_NE (Bminus mode_NE Bone x) y) Y) y) (lit 100.0%Q)) (lit 100.0%Q)) (S * (1 - rx - ry))).
  { pose proof (near_self x 1 Fx ltac:(fold rx; rewrite Rabs_pos_eq; lra)) as N0. fold rx in N0. pose proof (near_self y 1 Fy ltac:(fold ry; rewrite Rabs_pos_eq; lra)) as N0'. fold ry in N0'.
    assert (NB : near 1 0 (Bone : fl) 1). { split; [apply is_finite_Bone|]. rewrite Bone_correct. replace (1 - 1) with 0 by ring. rewrite Rabs_R0, Rabs_R1. lra. }
    pose proof (near_minus 1 0 0 _ _ _ _ NB N0 ltac:(lra) ltac:(lra) ltac:(lra) ltac:(lra) ltac:(rewrite Rabs_pos_eq; lra)) as M1. pose proof (near_minus 1 (0 + 0 + 1.01) 0 _ _ _ _ M1 N0' ltac:(lra) ltac:(lra) ltac:(lra) ltac:(lra) ltac:(rewrite Rabs_pos_eq; lra)) as M2.
    pose proof (near_mul 1 _ _ Y _ M2 FY ltac:(fold rY; lra) ltac:(lra) ltac:(lra) ltac:(fold rY; lra)) as N1. fold rY in N1.
    pose proof (near_div _ _ _ y _ N1 ltac:(fold ry; lra) ltac:(lra) ltac:(lra)) as N2. fold ry in N2. replace (1 * rY / ry) with S in N2 by (unfold S; field; lra). specialize (N2 ltac:(lra)).
    pose proof (hundred_times _ _ _ _ N2 ltac:(lra) ltac:(lra)) as N3. pose proof (hundred_over _ _ _ _ N3 ltac:(lra) ltac:(lra)) as N4. replace 6.06 with (0 + 0 + 1.01 + 0 + 1.01 + 1.01 + 1.01 + 1.01 + 1.01) by lra. eapply near_eq; [exact N4|field|]. unfold S. field. lra. }
  set (X' := Bdiv mode_NE (Bmult mode_NE (Bdiv mode_NE (Bmult mode_NE x Y) y) (lit 100.0%Q)) (lit 100.0%Q)) in *. set (Y' := Bdiv mode_NE (Bmult mode_NE Y (lit 100.0%Q)) (lit 100.0%Q)) in *.
  set (Z' := Bdiv mode_NE (Bmult mode_NE (Bdiv mode_NE (Bmult mode_NE (Bminus mode_NE (Bminus mode_NE Bone x) y) Y) y) (lit 100.0%Q)) (lit 100.0%Q)) in *.
  assert (SX : 0 <= S * rx) by (apply Rmult_le_pos; lra). assert (SXY : S * (rx + ry) <= S * 1) by (apply Rmult_le_compat_l; lra).
  pose proof (near_plus S 4.04 2.02 X' Y' _ _ NX (near_wider _ S _ _ _ NY ltac:(lra) ltac:(lra)) ltac:(lra) ltac:(lra) ltac:(lra) ltac:(lra) ltac:(rewrite Rabs_pos_eq; lra)) as S1.
  pose proof (near_plus S _ 6.06 _ Z' _ _ S1 NZ ltac:(lra) ltac:(lra) ltac:(lra) ltac:(lra) ltac:(rewrite Rabs_pos_eq; lra)) as S2.
  set (sm := Bplus mode_NE (Bplus mode_NE X' Y') Z') in *. apply (near_eq _ S _ _ _ S) in S2; [|reflexivity|lra].
  destruct (quot_near X' sm (S * rx) S S _ _ NX S2 ltac:(lra) ltac:(lra) ltac:(lra) ltac:(lra)) as [QX _]. { replace (S / S) with 1 by (field; lra). lra. }
  assert (YS : rY / S = ry) by (unfold S; field; lra).
  destruct (quot_near Y' sm rY S rY _ _ NY S2 ltac:(lra) ltac:(lra) ltac:(lra) ltac:(lra)) as [QY _]. { rewrite YS. lra. }
  eexists; eexists; eexists. split; [reflexivity|]. assert (LOOSE : forall M e f (v : fl) V, near M e v V -> e <= f -> 0 <= M -> near M f v V). { intros M e f v V (A & B & C) H M0. split; [exact A|]. split; [|exact C]. eapply Rle_trans; [exact B|]. apply Rmult_le_compat_r; [exact M0|]. apply Rmult_le_compat_r; lra. }
  split; [|split].
  - eapply LOOSE; [eapply near_eq; [exact QX|field; lra|field; lra]|lra|lra].
  - eapply LOOSE; [eapply near_eq; [exact QY|exact YS|exact YS]|lra|lra].
  - eapply LOOSE; [exact NY|lra|lra].
Qed.

Lemma loose M e f (v : fl) V : near M e v V -> e <= f -> 0 <= M -> near M f v V.
Proof. intros (A & B & C) H M0. destruct (CurveProofs.u24 prec P5) as [U0 U]. split; [exact A|]. split; [|exact C]. eapply Rle_trans; [exact B|]. apply Rmult_le_compat_r; [exact M0|]. apply Rmult_le_compat_r; lra. Qed.

Lemma back (X Y Z : fl) : is_finite X = true -> is_finite Y = true -> is_finite Z = true -> 0 <= B2R X -> 0 <= B2R Z -> 0.0001 <= B2R Y <= 1000000 -> B2R X + B2R Y + B2R Z <= 100000 * B2R Y ->
  exists X' Y' Z', @xyz_from_chromaticity _ ops (@xyy_from_xyz _ ops (Xyz X Y Z)) = Xyz X' Y' Z'
    /\ near (Rmax (B2R X) 0.000001) 6.2 X' (B2R X) /\ near (B2R Y) 2.1 Y' (B2R Y) /\ near (B2R X + B2R Y + B2R Z) 27 Z' (B2R Z).
Proof.
  intros FX FY FZ HX HZ HY HP. destruct (CurveProofs.u24 prec P5) as [U0 U]. pose proof speck_val as SV. set (rX := B2R X) in *. set (rY := B2R Y) in *. set (rZ := B2R Z) in *. set (P := rX + rY + rZ) in *. assert (PE : P = rX + rY + rZ) by reflexivity. clearbody P.
  unfold xyy_from_xyz, xyz_from_chromaticity, xyz_mul_s, xyz_div_s. cbn [xyy_x xyy_y xyy_Y xyz_x xyz_y xyz_z radd rsub rmul rdiv rone rlit b_ops].
  set (m := Rmax rX 0.000001). assert (HM : rX <= m /\ 0.000001 <= m /\ m <= 100000000000) by (unfold m; split; [apply Rmax_l|]; split; [apply Rmax_r|]; apply Rmax_lub; lra).
  pose proof (hundred_over m 0 X rX (near_self X m FX ltac:(fold rX; rewrite Rabs_pos_eq; lra)) ltac:(lra) ltac:(lra)) as NXm.
  pose proof (hundred_over P 0 X rX (near_self X P FX ltac:(fold rX; rewrite Rabs_pos_eq; lra)) ltac:(lra) ltac:(lra)) as NX.
  pose proof (hundred_over rY 0 Y rY (near_self Y rY FY ltac:(fold rY; rewrite Rabs_pos_eq; lra)) ltac:(lra) ltac:(lra)) as NY.
  pose proof (hundred_over P 0 Z rZ (near_self Z P FZ ltac:(fold rZ; rewrite Rabs_pos_eq; lra)) ltac:(lra) ltac:(lra)) as NZ.
  set (a := Bdiv mode_NE X (lit 100.0%Q)) in *. set (b := Bdiv mode_NE Y (lit 100.0%Q)) in *. set (c := Bdiv mode_NE Z (lit 100.0%Q)) in *.
  pose proof (near_plus (P / 100) (0 + 1.01) (0 + 1.01) a b _ _ NX (near_wider _ (P / 100) _ _ _ NY ltac:(lra) ltac:(lra)) ltac:(lra) ltac:(lra) ltac:(lra) ltac:(lra) ltac:(rewrite Rabs_pos_eq; lra)) as S1.
  pose proof (near_plus (P / 100) _ (0 + 1.01) _ c _ _ S1 NZ ltac:(lra) ltac:(lra) ltac:(lra) ltac:(lra) ltac:(rewrite Rabs_pos_eq; lra)) as S2.
  set (sm := Bplus mode_NE (Bplus mode_NE a b) c) in *. apply (near_eq _ (P / 100) _ _ _ (P / 100)) in S2; [|reflexivity|lra].
  assert (PP : P / 100 / (P / 100) = 1) by (field; lra). assert (YP : rY / 100 / (P / 100) = rY / P) by (field; lra).
  assert (QR : 0.00001 <= rY / P <= 1). { unfold Rdiv. split; apply (Rmult_le_reg_r P); try lra; rewrite Rmult_assoc, Rinv_l by lra; lra. }
  destruct (quot_near a sm (rX / 100) (P / 100) (P / 100) _ _ NX S2 ltac:(lra) ltac:(lra) ltac:(lra) ltac:(lra) ltac:(rewrite PP; lra)) as (QX & SP & SR). rewrite PP in QX.
  destruct (quot_near b sm (rY / 100) (P / 100) (rY / 100) _ _ NY S2 ltac:(lra) ltac:(lra) ltac:(lra) ltac:(lra) ltac:(rewrite YP; lra)) as (QY & _ & _). rewrite YP in QY.
  set (x := Bdiv mode_NE a sm) in *. set (y := Bdiv mode_NE b sm) in *. assert (Fb : is_finite b = true) by apply NY. assert (Fy : is_finite y = true) by apply QY.
  assert (Rb : rel (1.01 * u) (B2R b) (rY / 100)) by (destruct NY as (_ & H & _); unfold rel; eapply Rle_trans; [exact H|]; lra).
  pose proof (rel_bounds _ _ _ Rb) as Bb. assert (BU : 0 <= u * (rY / 100) <= / 1000000 * (rY / 100)) by (split; [apply Rmult_le_pos; lra|apply Rmult_le_compat_r; lra]). assert (B0 : 0 < B2R b) by lra.
  assert (Ry : rel (8 * u) (B2R y) (rY / P)) by (destruct QY as (_ & H & _); unfold rel; eapply Rle_trans; [exact H|]; apply Rmult_le_compat_r; lra).
  pose proof (rel_bounds _ _ _ Ry) as By. assert (YU : 0 <= u * (rY / P) <= / 1000000 * (rY / P)) by (split; [apply Rmult_le_pos; lra|apply Rmult_le_compat_r; lra]). assert (Y0 : 0 < B2R y) by lra.
  (* b over sm over y is nearly 1 *)
  set (k1 := B2R b / B2R sm). assert (K1 : 0.000009 <= k1 <= 1.01).
  { pose proof (rel_div (1.01 * u) ((0 + 1.01 + (0 + 1.01) + 1.01 + (0 + 1.01) + 1.01) * u) _ _ _ _ Rb SR ltac:(lra) ltac:(lra) ltac:(lra) ltac:(lra)) as H. rewrite YP in H. apply rel_bounds in H. fold k1 in H. lra. }
  assert (Rk : rel (1.01 * u) (B2R y) k1). { pose proof (near_div _ _ b sm _ (near_self b (B2R b) Fb ltac:(rewrite Rabs_pos_eq; lra)) SP ltac:(lra) ltac:(lra) ltac:(fold k1; lra)) as (_ & H & _). fold k1 in H. fold y in H. unfold rel. eapply Rle_trans; [exact H|]. apply Rmult_le_compat_r; lra. }
  set (k := k1 / B2R y). assert (RK : rel (1.03 * u) k 1). { pose proof (rel_inv (1.01 * u) (B2R y) k1 ltac:(lra) ltac:(lra) Rk) as H. unfold rel in H |- *. unfold k. replace (k1 / B2R y - 1) with (k1 * (/ B2R y - / k1)) by (field; lra). rewrite Rabs_mult, (Rabs_pos_eq k1) by lra. apply Rle_trans with (k1 * (1.01 * (1.01 * u) * / k1)); [apply Rmult_le_compat_l; lra|]. replace (k1 * (1.01 * (1.01 * u) * / k1)) with (1.01 * (1.01 * u)) by (field; lra). lra. }
  pose proof (rel_bounds _ _ _ RK) as BK.
  (* X *)
  assert (RX : near m 6.2 (Bmult mode_NE (Bdiv mode_NE (Bmult mode_NE x b) y) (lit 100.0%Q)) rX).
  { assert (SMR : 0.0000009 <= B2R sm <= 1100000000) by (apply rel_bounds in SR; assert (0 <= u * (P / 100) <= / 1000000 * (P / 100)) by (split; [apply Rmult_le_pos; lra|apply Rmult_le_compat_r; lra]); lra).
    assert (ISM : / 1100000000 <= / B2R sm <= / 0.0000009) by (split; apply Rinv_le; lra).
    assert (M1 : speck <= m / 100 / B2R sm <= 100000000000000000). { unfold Rdiv at 1. split; [apply Rle_trans with (0.00000001 * / 1100000000); [lra|apply Rmult_le_compat; lra]|apply Rle_trans with (1000000000 * / 0.0000009); [apply Rmult_le_compat; lra|lra]]. }
    pose proof (near_div _ _ a sm _ NXm SP ltac:(lra) ltac:(lra) M1) as N1. fold x in N1.
    assert (E2 : m / 100 / B2R sm * B2R b = m / 100 * k1) by (unfold k1; field; lra). assert (B2 : 0.00000001 * 0.000009 <= m / 100 * k1 <= 1000000000 * 1.01) by (split; apply Rmult_le_compat; lra).
    pose proof (near_mul _ _ x b _ N1 Fb B0 ltac:(lra) ltac:(lra) ltac:(rewrite E2; lra)) as N2.
    assert (E3 : m / 100 / B2R sm * B2R b / B2R y = m / 100 * k) by (rewrite E2; unfold k; field; lra). assert (B3 : 0.00000001 * 0.9 <= m / 100 * k <= 1000000000 * 1.1) by (split; apply Rmult_le_compat; lra).
    pose proof (near_div _ _ _ y _ N2 Y0 ltac:(lra) ltac:(rewrite E2; lra) ltac:(rewrite E3; lra)) as N3. rewrite E3 in N3. pose proof (hundred_times _ _ _ _ N3 ltac:(lra) ltac:(lra)) as N4.
    assert (E4 : rX / 100 / B2R sm * B2R b / B2R y * 100 = rX * k) by (unfold k, k1; field; lra). rewrite E4 in N4.
    eapply loose; [apply (near_shift (m / 100 * k * 100) m (0 + 1.01 + 1.01 + 1.01 + 1.01 + 1.01) 1.03 _ (rX * k)); [exact N4| | | |lra|lra|lra]|lra|lra].
    - unfold rel in *. replace (m / 100 * k * 100 - m) with (m * (k - 1)) by field. rewrite Rabs_mult, (Rabs_pos_eq m), (Rmult_comm (1.03 * u)) by lra. apply Rmult_le_compat_l; lra.
    - unfold rel in RK. replace (rX * k - rX) with (rX * (k - 1)) by ring. rewrite Rabs_mult, (Rabs_pos_eq rX), (Rmult_comm (1.03 * u)) by lra. apply Rmult_le_compat; try lra. apply Rabs_pos.
    - rewrite Rabs_pos_eq; lra. }
  (* Z *)
  assert (FXY : rX / P + rY / P + rZ / P = 1) by (rewrite <- (Rinv_r P) by lra; rewrite PE at 4; unfold Rdiv; ring). assert (IP : 0 < / P) by (apply Rinv_0_lt_compat; lra). assert (XP : 0 <= rX / P) by (apply Rmult_le_pos; lra). assert (ZP : 0 <= rZ / P) by (apply Rmult_le_pos; lra).
  assert (NB : near 1 0 (Bone : fl) 1). { split; [apply is_finite_Bone|]. rewrite Bone_correct. replace (1 - 1) with 0 by ring. rewrite Rabs_R0, Rabs_R1. lra. }
  apply (near_eq _ 1 _ _ _ (rX / P)) in QX; [|reflexivity|field; lra].
  assert (QX' : near 1 7.13 x (rX / P)) by (eapply loose; [exact QX|lra|lra]). assert (QY' : near 1 7.13 y (rY / P)) by (eapply loose; [eapply near_wider; [eapply near_eq; [exact QY|reflexivity|field; lra]|lra|lra]|lra|lra]).
  pose proof (near_minus 1 0 7.13 _ _ _ _ NB QX' ltac:(lra) ltac:(lra) ltac:(lra) ltac:(lra) ltac:(rewrite Rabs_pos_eq; lra)) as Z1. pose proof (near_minus 1 _ 7.13 _ _ _ _ Z1 QY' ltac:(lra) ltac:(lra) ltac:(lra) ltac:(lra) ltac:(rewrite Rabs_pos_eq; lra)) as Z2.
  apply (near_eq _ 1 _ _ _ (rZ / P)) in Z2; [|reflexivity|lra]. 
  assert (RZ : near P 27 (Bmult mode_NE (Bdiv mode_NE (Bmult mode_NE (Bminus mode_NE (Bminus mode_NE Bone x) y) b) y) (lit 100.0%Q)) rZ).
  { pose proof (near_mul 1 _ _ b _ Z2 Fb B0 ltac:(lra) ltac:(lra) ltac:(lra)) as N1.
    assert (RBY : rel (6.2 * u) (B2R b / B2R y) (P / 100)). { replace (B2R b / B2R y) with (k * B2R sm) by (unfold k, k1; field; lra). pose proof (rel_mul (1.03 * u) ((0 + 1.01 + (0 + 1.01) + 1.01 + (0 + 1.01) + 1.01) * u) _ _ _ _ RK SR ltac:(lra) ltac:(lra) ltac:(lra) ltac:(lra)) as H. rewrite Rmult_1_l in H. eapply rel_weaken; [exact H|lra|lra]. }
    pose proof (rel_bounds _ _ _ RBY) as BB. assert (PU : 0 <= u * (P / 100) <= / 1000000 * (P / 100)) by (split; [apply Rmult_le_pos; lra|apply Rmult_le_compat_r; lra]).
    assert (E3 : 1 * B2R b / B2R y = B2R b / B2R y) by (rewrite Rmult_1_l; reflexivity). pose proof (near_div _ _ _ y _ N1 Y0 ltac:(lra) ltac:(lra) ltac:(rewrite E3; lra)) as N2. rewrite E3 in N2.
    pose proof (hundred_times _ _ _ _ N2 ltac:(lra) ltac:(lra)) as N3.
    assert (MB : Rabs (B2R b / B2R y - P / 100) <= 6.2 * u * (P / 100)) by exact RBY.
    eapply loose; [apply (near_shift (B2R b / B2R y * 100) P (0 + 7.13 + 1.01 + 7.13 + 1.01 + 1.01 + 1.01 + 1.01) 6.2 _ (rZ / P * B2R b / B2R y * 100)); [exact N3| | | |lra|lra|lra]|lra|lra].
    - unfold rel. replace (B2R b / B2R y * 100 - P) with ((B2R b / B2R y - P / 100) * 100) by lra. rewrite Rabs_mult, (Rabs_pos_eq 100) by lra. lra.
    - replace (rZ / P * B2R b / B2R y * 100 - rZ) with (rZ / P * ((B2R b / B2R y - P / 100) * 100)) by (field; lra). rewrite !Rabs_mult, (Rabs_pos_eq 100), (Rabs_pos_eq (rZ / P)) by lra.
      replace (6.2 * u * P) with (1 * (6.2 * u * (P / 100) * 100)) by lra. apply Rmult_le_compat; try lra. apply Rmult_le_pos; [apply Rabs_pos|lra].
    - rewrite Rabs_pos_eq; lra. }
  assert (RY : near rY 2.1 (Bmult mode_NE b (lit 100.0%Q)) rY). { pose proof (hundred_times _ _ _ _ NY ltac:(lra) ltac:(lra)) as H. eapply loose; [eapply near_eq; [exact H|field|field]|lra|lra]. }
  eexists; eexists; eexists. split; [reflexivity|]. split; [exact RX|]. split; [exact RY|exact RZ].
Qed.
End Fmt.

(* xyY -> XYZ -> xyY and XYZ -> xyY -> XYZ, errors in half-units in the last place *)
Definition xyy_round (prec emax : Z) (ops : RealOps (binary_float prec emax)) (u : R) : Prop := forall x y Y : binary_float prec emax, is_finite x = true -> is_finite y = true -> is_finite Y = true ->
  0 <= B2R x -> 0.00001 <= B2R y -> B2R x + B2R y <= 1 -> 0.0001 <= B2R Y <= 1000000 ->
  exists x' y' Y', @xyy_from_xyz _ ops (@xyz_from_chromaticity _ ops (Xyy x y Y)) = Xyy x' y' Y' /\ is_finite x' = true /\ is_finite y' = true /\ is_finite Y' = true
    /\ Rabs (B2R x' - B2R x) <= 20 * u /\ Rabs (B2R y' - B2R y) <= 18 * u * B2R y /\ Rabs (B2R Y' - B2R Y) <= 2.1 * u * B2R Y.
Definition xyz_round (prec emax : Z) (ops : RealOps (binary_float prec emax)) (u : R) : Prop := forall X Y Z : binary_float prec emax, is_finite X = true -> is_finite Y = true -> is_finite Z = true ->
  0 <= B2R X -> 0 <= B2R Z -> 0.0001 <= B2R Y <= 1000000 -> B2R X + B2R Y + B2R Z <= 100000 * B2R Y ->
  exists X' Y' Z', @xyz_from_chromaticity _ ops (@xyy_from_xyz _ ops (Xyz X Y Z)) = Xyz X' Y' Z' /\ is_finite X' = true /\ is_finite Y' = true /\ is_finite Z' = true
    /\ Rabs (B2R X' - B2R X) <= 6.2 * u * Rmax (B2R X) 0.000001 /\ Rabs (B2R Y' - B2R Y) <= 2.1 * u * B2R Y /\ Rabs (B2R Z' - B2R Z) <= 27 * u * (B2R X + B2R Y + B2R Z).
Section Gen.
Context (prec emax : Z) {Hp : Prec_gt_0 prec} {He : Prec_lt_emax prec emax} (P5 : (24 <= prec)%Z) (E5 : (128 <= emax)%Z).
Context (L : libm (binary_float prec emax)) (lit : Q -> binary_float prec emax) (LH : lit_exact prec emax lit 100.0%Q 100).
Lemma xyy_round_ok : xyy_round prec emax (b_ops prec emax L lit) (bpow radix2 (- prec)).
Proof.
  intros x y Y Fx Fy FY Hx Hy Hxy HY. destruct (there prec emax P5 E5 L lit LH x y Y Fx Fy FY Hx Hy Hxy HY) as (x' & y' & Y' & E & (A1 & A2 & _) & (B1 & B2 & _) & (C1 & C2 & _)).
  rewrite Rmult_1_r in A2. exists x', y', Y'. repeat (split; [assumption|]). assumption.
Qed.
Lemma xyz_round_ok : xyz_round prec emax (b_ops prec emax L lit) (bpow radix2 (- prec)).
Proof.
  intros x y Y Fx Fy FY Hx Hy Hxy HY. destruct (back prec emax P5 E5 L lit LH x y Y Fx Fy FY Hx Hy Hxy HY) as (x' & y' & Y' & E & (A1 & A2 & _) & (B1 & B2 & _) & (C1 & C2 & _)).
  exists x', y', Y'. repeat (split; [assumption|]). assumption.
Qed.
End Gen.

Theorem C110_xyY_XYZ_xyY_f32 : forall L : libm f32, xyy_round 24 128 (f32_ops L) (bpow radix2 (-24)).
Proof. intro L. apply xyy_round_ok; try lia. by_sf. Qed.
Print Assumptions C110_xyY_XYZ_xyY_f32.
Theorem C110_xyY_XYZ_xyY_f64 : forall L : libm f64, xyy_round 53 1024 (f64_ops L) (bpow radix2 (-53)).
Proof. intro L. apply xyy_round_ok; try lia. by_sf. Qed.
Print Assumptions C110_xyY_XYZ_xyY_f64.
Theorem C110_XYZ_xyY_XYZ_f32 : forall L : libm f32, xyz_round 24 128 (f32_ops L) (bpow radix2 (-24)).
Proof. intro L. apply xyz_round_ok; try lia. by_sf. Qed.
Print Assumptions C110_XYZ_xyY_XYZ_f32.
Theorem C110_XYZ_xyY_XYZ_f64 : forall L : libm f64, xyz_round 53 1024 (f64_ops L) (bpow radix2 (-53)).
Proof. intro L. apply xyz_round_ok; try lia. by_sf. Qed.
Print Assumptions C110_XYZ_xyY_XYZ_f64.

(* the green primary of Adobe RGB in single precision comes back, but not bit by bit *)
Local Notation single q := (f64_to_f32 (b_of_Q 53 1024 q)).
Definition green_back (L : libm f32) : xyy f32 := @xyy_from_xyz _ (f32_ops L) (@xyz_from_chromaticity _ (f32_ops L) (Xyy (single 0.21%Q) (single 0.71%Q) (single 1.0%Q))).
Example C110_example : forall L : libm f32, B2SF (xyy_x (green_back L)) <> B2SF (single 0.21%Q) /\ B2SF (xyy_y (green_back L)) <> B2SF (single 0.71%Q)
  /\ Rabs (B2R (xyy_x (green_back L)) - B2R (single 0.21%Q)) <= 20 * bpow radix2 (-24).
Proof.
  intro L. split; [vm_compute; discriminate|]. split; [vm_compute; discriminate|].
  destruct (exact_sf 24 128 (single 0.21%Q) 14092861 (-26) _ ltac:(vm_compute; reflexivity) eq_refl) as [F1 V1]. destruct (exact_sf 24 128 (single 0.71%Q) 11911823 (-24) _ ltac:(vm_compute; reflexivity) eq_refl) as [F2 V2].
  assert (O : is_finite (single 1.0%Q) = true /\ B2R (single 1.0%Q) = 1) by by_sf. destruct O as [F3 V3].
  change (bpow radix2 (-26)) with (/ 67108864) in V1. change (bpow radix2 (-24)) with (/ 16777216) in V2.
  destruct (C110_xyY_XYZ_xyY_f32 L (single 0.21%Q) (single 0.71%Q) (single 1.0%Q) F1 F2 F3) as (x' & y' & Y' & E & _ & _ & _ & B & _); try (rewrite ?V1, ?V2, ?V3; lra).
  change (green_back L = Xyy x' y' Y') in E. rewrite E. exact B.
Qed.
Print Assumptions C110_example.
