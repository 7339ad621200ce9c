(* C97: the interpolations of interpolation.rs in floating point against exact arithmetic *)
From Coq Require Import Reals ZArith QArith Qreals Lra Lia Bool List Sorting.Sorted.
From Flocq Require Import Core BinarySingleNaN.
From Verif Require Import Outcome RealOps MathModel ColorModel InterpModel XReal FloatInst FloatProofs ErrProofs CurveProofs VspdProofs SpragueProofs PropSprague SpragueErrProofs.
Import ListNotations.
Open Scope R_scope.

(* ---- facts that hold for any number type ---- *)
Section G.
Context {T : Type} {O : RealOps T}.
Lemma new_shape (ss : list (sample T)) sh s0 s1 sl : first_opt ss = Some s0 -> nth_error ss 1 = Some s1 -> last_opt ss = Some sl ->
  sprague_new (Vspd ss sh) = (let i := (s_nm s1 - s_nm s0)%num in let vs := map s_v ss in
    Ret (Sprague ([(s_nm s0 - i * rlitd 2.0)%num; (s_nm s0 - i)%num] ++ map s_nm ss ++ [(s_nm sl + i)%num; (s_nm sl + i * rlitd 2.0)%num])
      ([(fsum (zip_mul coeff_c0 vs) / rlitd 209.0)%num; (fsum (zip_mul coeff_c1 vs) / rlitd 209.0)%num] ++ vs
        ++ [(fsum (zip_mul (rev coeff_c2) (rev vs)) / rlitd 209.0)%num; (fsum (zip_mul (rev coeff_c3) (rev vs)) / rlitd 209.0)%num]))).
Proof.
  intros A B C. unfold sprague_new, v_first, v_last. cbn [v_samples]. rewrite A, C, (oindex_some _ _ _ B). reflexivity.
Qed.
Lemma index_any dbg (x1 x2 x3 x4 x : T) ws j z : rlt x x1 = false -> rlt x x2 = false ->
  (forall i a, (i < j)%nat -> nth_error ws i = Some a -> rlt x a = false) -> nth_error (ws ++ [x3; x4]) j = Some z -> rlt x z = true ->
  (1 <= j <= length ws)%nat -> (2 <= length ws)%nat -> sprague_index dbg ([x1; x2] ++ ws ++ [x3; x4]) x = Ret (Nat.min (j + 1) (length ws)).
Proof.
  intros A B C D E J L. unfold sprague_index. assert (P : position (fun t => rlt x t) ([x1; x2] ++ ws ++ [x3; x4]) = Some (S (S j))).
  { apply (position_some _ _ _ z); [exact D|exact E|]. intros i a Hi Ha. destruct i as [|[|i]]; cbn in Ha; [injection Ha as <-; exact A|injection Ha as <-; exact B|].
    apply (C i); [lia|]. rewrite nth_error_app1 in Ha by lia. exact Ha. }
  rewrite P. cbn [unwrap obind]. rewrite !app_length. cbn [length]. rewrite usize_sub_ok by lia. cbn [obind]. f_equal. lia.
Qed.
Lemma inner_nth {A} (a b c d : A) l k : (k < length l)%nat -> nth_error ([a; b] ++ l ++ [c; d]) (k + 2) = nth_error l k.
Proof. intro H. replace (k + 2)%nat with (S (S k)) by lia. cbn [app nth_error]. apply nth_error_app1, H. Qed.
End G.

(* ---- the exact interpolation on any increasing wavelengths ---- *)
Section X.
Context {K : XConst}.
Lemma exact_value dbg (l : list (R * R)) sh k x : (6 <= length l)%nat -> strictly l -> (S k < length l)%nat -> fst (nth k l (0, 0)) <= x ->
  x < fst (nth (S k) l (0, 0)) \/ (S (S k) = length l /\ x = fst (nth (S k) l (0, 0))) ->
  (let! sp := sprague_new (Vspd (FinSamps l) sh) in sprague_evaluate dbg sp (Fin x))
  = Ret (Fin (P0 (seg (ext (map snd l)) (k + 2)) ((x - fst (nth k l (0, 0))) / (fst (nth (S k) l (0, 0)) - fst (nth k l (0, 0)))))).
Proof.
  intros Hn S Hk X1 X2. set (nm j := fst (nth j l (0, 0))). change (nm k <= x) in X1. change (x < nm (Datatypes.S k) \/ Datatypes.S (Datatypes.S k) = length l /\ x = nm (Datatypes.S k)) in X2. change (fst (nth k l (0, 0))) with (nm k). change (fst (nth (Datatypes.S k) l (0, 0))) with (nm (Datatypes.S k)). assert (LT : forall i j, (i < j)%nat -> (j < length l)%nat -> nm i < nm j) by (intros; apply strictly_nth; assumption).
  assert (Hl : l <> []) by (intros ->; cbn in Hn; lia). pose proof (LT 0 1 ltac:(lia) ltac:(lia))%nat as L01.
  rewrite (new_shape (FinSamps l) sh (FinSamp (nth 0 l (0, 0))) (FinSamp (nth 1 l (0, 0))) (FinSamp (nth (length l - 1) l (0, 0))));
    [|destruct l; [contradiction|reflexivity]|apply nthS; lia|unfold FinSamps; rewrite last_opt_map, (last_opt_nth l (0, 0) Hl); reflexivity].
  cbv zeta. cbn [obind].
  change (s_nm (FinSamp (nth 0 l (0, 0)))) with (Fin (nm 0%nat)). change (s_nm (FinSamp (nth 1 l (0, 0)))) with (Fin (nm 1%nat)). change (s_nm (FinSamp (nth (length l - 1) l (0, 0)))) with (Fin (nm (length l - 1)%nat)). rewrite nms_fin, vals_fin.
  replace (rev (Fins (map snd l))) with (Fins (rev (map snd l))) by apply map_rev.
  rewrite c0_fin, c1_fin, c2_fin, c3_fin, !fsum_zip_fin. xs. rewrite !x_div by (clear; q2r; lra). replace (Q2R 209.0) with 209 by (clear; q2r; lra). replace (Q2R 2.0) with 2 by (clear; q2r; lra).
  set (ys := [Fin (dotp C0 (map snd l) / 209); Fin (dotp C1 (map snd l) / 209)] ++ Fins (map snd l) ++ [Fin (dotp C1 (rev (map snd l)) / 209); Fin (dotp C0 (rev (map snd l)) / 209)]).
  assert (EY : ys = Fins (ext (map snd l))) by (unfold ys, ext, Fins; rewrite !map_app; reflexivity). rewrite EY. clear ys EY.
  set (xs := [Fin (nm 0%nat - (nm 1%nat - nm 0%nat) * 2); Fin (nm 0%nat - (nm 1%nat - nm 0%nat))] ++ Fins (map fst l) ++ [Fin (nm (length l - 1)%nat + (nm 1%nat - nm 0%nat)); Fin (nm (length l - 1)%nat + (nm 1%nat - nm 0%nat) * 2)]).
  assert (LL : length (Fins (map fst l)) = length l) by (unfold Fins; rewrite !map_length; reflexivity).
  assert (NA : forall j, (j < length l)%nat -> nth_error (Fins (map fst l)) j = Some (Fin (nm j))) by (intros j Hj; unfold Fins; rewrite map_map, nth_error_map, (nth_error_nth' l (0, 0) Hj); reflexivity).
  assert (N0 : forall i, (i <= k)%nat -> nm i <= x). { intros i Hi. destruct (Nat.eq_dec i k) as [->|N]; [exact X1|]. pose proof (LT i k ltac:(lia) ltac:(lia)). lra. }
  pose proof (N0 0%nat ltac:(lia)) as N00.
  assert (I : sprague_index dbg xs (Fin x) = Ret (k + 2)%nat).
  { destruct X2 as [X2|(K2 & X2)].
    - unfold xs. rewrite (index_any dbg _ _ _ _ (Fin x) (Fins (map fst l)) (Datatypes.S k) (Fin (nm (Datatypes.S k)))); [f_equal; lia|rewrite x_lt; apply Rltb_false; lra|rewrite x_lt; apply Rltb_false; lra| | | |lia|lia].
      + intros i a Hi Ha. rewrite NA in Ha by lia. injection Ha as <-. rewrite x_lt. apply Rltb_false, N0. lia.
      + rewrite nth_error_app1 by lia. apply NA, Hk.
      + rewrite x_lt. apply Rltb_true, X2.
    - unfold xs. rewrite (index_any dbg _ _ _ _ (Fin x) (Fins (map fst l)) (length l) (Fin (nm (length l - 1)%nat + (nm 1%nat - nm 0%nat)))); [f_equal; lia|rewrite x_lt; apply Rltb_false; lra|rewrite x_lt; apply Rltb_false; lra| | | |lia|lia].
      + intros i a Hi Ha. rewrite NA in Ha by lia. injection Ha as <-. rewrite x_lt. apply Rltb_false. destruct (Nat.eq_dec i (Datatypes.S k)) as [->|Ni]; [lra|]. apply N0. lia.
      + rewrite nth_error_app2 by lia. rewrite LL, Nat.sub_diag. reflexivity.
      + rewrite x_lt. apply Rltb_true. replace (length l - 1)%nat with (Datatypes.S k) by lia. lra. }
  unfold sprague_evaluate. cbn [sp_x sp_y]. rewrite I. cbn [obind].
  assert (E1 : nth_error xs (k + 2) = Some (Fin (nm k))) by (unfold xs; rewrite inner_nth by lia; apply NA; lia).
  assert (E2 : nth_error xs (k + 2 + 1) = Some (Fin (nm (Datatypes.S k)))) by (replace (k + 2 + 1)%nat with (Datatypes.S k + 2)%nat by lia; unfold xs; rewrite inner_nth by lia; apply NA; lia).
  rewrite (oindex_some _ _ _ E1), (oindex_some _ _ _ E2). cbn [obind]. rewrite coeff_a_fin by (rewrite ?ext_length, ?map_length; lia). cbn [obind].
  pose proof (LT k (Datatypes.S k) ltac:(lia) Hk). rewrite !x_sub, x_div by lra. set (t := (x - nm k) / (nm (Datatypes.S k) - nm k)).
  unfold seg, seg6, Fins. cbn [map]. rewrite x_powi2, x_powi3, x_powi4, x_powi5. xs. cbn [P0]. do 2 f_equal. ring.
Qed.
End X.

Section F.
Context {K : XConst} (prec emax : Z) {Hp : Prec_gt_0 prec} {He : Prec_lt_emax prec emax}.
Notation fl := (binary_float prec emax).
Notation u := (bpow radix2 (- prec)).
Notation eta := (bpow radix2 (2 - emax - prec)).
Notation tiny := (bpow radix2 (2 - emax)).
Notation rnd := (round radix2 (SpecFloat.fexp prec emax) ZnearestE).
Notation litd := (b_of_Q prec emax).
Context (P5 : (24 <= prec)%Z) (E5 : (128 <= emax)%Z) (L : libm fl) (lit : Q -> fl).
Notation ops := (b_ops prec emax L lit).

(* the same samples as real numbers *)
Definition reals (ss : list (sample fl)) : list (R * R) := map (fun s => (B2R (s_nm s), B2R (s_v s))) ss.

(* ---- the position inside a piece ---- *)
Lemma dx_err W (x a b : fl) : tiny <= W -> W <= bpow radix2 (emax - 30) -> is_finite x = true -> is_finite a = true -> is_finite b = true ->
  Rabs (B2R a) <= W -> Rabs (B2R b) <= W -> B2R a <= B2R x <= B2R b -> B2R a < B2R b ->
  let d := Bdiv mode_NE (Bminus mode_NE x a) (Bminus mode_NE b a) in let q := (B2R x - B2R a) / (B2R b - B2R a) in
  is_finite d = true /\ 0 <= q <= 1 /\ Rabs (B2R d - q) <= 5 * u /\ (B2R x = B2R a -> B2R d = 0).
Proof.
  intros W1 W2 Fx Fa Fb Ha Hb Hx Hab d q. destruct (CurveProofs.u24 prec P5) as [U0 U1]. destruct (CurveProofs.eta_le prec emax E5) as [T0 T1]. destruct (um prec emax P5 W W1) as (_ & _ & W0).
  apply Rabs_le_inv in Ha, Hb. assert (SX : Rabs (B2R x - B2R a) <= 100000000 * W) by (apply Rabs_le; lra). assert (SB : Rabs (B2R b - B2R a) <= 100000000 * W) by (apply Rabs_le; lra).
  pose proof (Bminus_correct prec emax _ _ mode_NE x a Fx Fa) as D1. cbn [round_mode] in D1. rewrite Rlt_bool_true in D1 by (apply (below prec emax P5 W W1 W2), SX). destruct D1 as (V1 & F1 & _).
  pose proof (Bminus_correct prec emax _ _ mode_NE b a Fb Fa) as D2. cbn [round_mode] in D2. rewrite Rlt_bool_true in D2 by (apply (below prec emax P5 W W1 W2), SB). destruct D2 as (V2 & F2 & _).
  pose proof (rnd_diff prec emax x a) as R1. pose proof (rnd_diff prec emax b a) as R2. rewrite <- V1 in R1. rewrite <- V2 in R2.
  set (n := B2R (Bminus mode_NE x a)) in *. set (m := B2R (Bminus mode_NE b a)) in *. set (n0 := B2R x - B2R a) in *. set (m0 := B2R b - B2R a) in *.
  assert (N0 : 0 <= n0 <= m0) by (unfold n0, m0; lra). assert (M0 : 0 < m0) by (unfold m0; lra). rewrite (Rabs_pos_eq n0) in R1 by lra. rewrite (Rabs_pos_eq m0) in R2 by lra. apply Rabs_le_inv in R1, R2.
  assert (UN : 0 <= u * n0 <= / 10000000 * n0) by (split; [apply Rmult_le_pos; lra|apply Rmult_le_compat_r; lra]). assert (UM : 0 <= u * m0 <= / 10000000 * m0) by (split; [apply Rmult_le_pos; lra|apply Rmult_le_compat_r; lra]).
  assert (Mp : 0 < m) by lra.
  assert (Q : 0 <= q <= 1). { unfold q. split; [apply Rmult_le_pos; [lra|left; apply Rinv_0_lt_compat; lra]|]. apply (Rmult_le_reg_r m0); [lra|]. unfold Rdiv. rewrite Rmult_assoc, Rinv_l by lra. lra. }
  assert (QE : q * m0 = n0) by (unfold q; field; lra). assert (NM : Rabs (n / m - q) <= 2.1 * u).
  { assert (E : (n / m - q) * m = (n - n0) - q * (m - m0)) by (replace n0 with (q * m0) by exact QE; field; lra).
    assert (A : Rabs ((n / m - q) * m) <= 2 * (u * m0)). { rewrite E. unfold Rminus at 1. eapply Rle_trans; [apply Rabs_triang|]. rewrite Rabs_Ropp, Rabs_mult, (Rabs_pos_eq q) by lra.
      assert (Rabs (n - n0) <= u * m0) by (apply Rabs_le; assert (u * n0 <= u * m0) by (apply Rmult_le_compat_l; lra); lra). assert (Rabs (m - m0) <= u * m0) by (apply Rabs_le; lra).
      assert (q * Rabs (m - m0) <= 1 * (u * m0)) by (apply Rmult_le_compat; try apply Rabs_pos; lra). lra. }
    rewrite Rabs_mult, (Rabs_pos_eq m) in A by lra. apply (Rmult_le_reg_r m); [exact Mp|]. eapply Rle_trans; [exact A|].
    assert (2.1 * u * ((1 - / 10000000) * m0) <= 2.1 * u * m) by (apply Rmult_le_compat_l; lra). lra. }
  assert (NB : Rabs (n / m) <= 1.1). { replace (n / m) with (q + (n / m - q)) by ring. eapply Rle_trans; [apply Rabs_triang|]. rewrite (Rabs_pos_eq q) by lra. lra. }
  pose proof (rnd_any prec emax (n / m)) as R. assert (UR : u * Rabs (n / m) <= u * 1.1) by (apply Rmult_le_compat_l; lra). assert (B : Rabs (rnd (n / m)) < bpow radix2 emax).
  { pose proof (CurveProofs.huge emax E5). replace (rnd (n / m)) with (n / m + (rnd (n / m) - n / m)) by ring. eapply Rle_lt_trans; [apply Rabs_triang|]. lra. }
  destruct (fdiv prec emax (Bminus mode_NE x a) (Bminus mode_NE b a) F1) as [F E]; [fold m; lra|exact B|]. fold n m in E. split; [exact F|]. split; [exact Q|]. split.
  - unfold d. rewrite E. replace (rnd (n / m) - q) with ((rnd (n / m) - n / m) + (n / m - q)) by ring. eapply Rle_trans; [apply Rabs_triang|]. lra.
  - intro Z. unfold d. rewrite E. assert (Z1 : n0 = 0) by (unfold n0; lra). assert (Z2 : n = 0) by (rewrite Z1 in R1; lra). rewrite Z2. unfold Rdiv. rewrite Rmult_0_l. apply round_0; auto with typeclass_instances.
Qed.
Lemma pow_close a q k n : 0 <= q <= 1 -> Rabs (a - q) <= k -> 0 <= k <= / 1000000 -> (1 <= n <= 5)%nat -> Rabs (a ^ n - q ^ n) <= INR n * (1.01 * k).
Proof.
  intros Q A Kk Nn. assert (AA : Rabs a <= 1 + / 1000000). { replace a with (q + (a - q)) by ring. eapply Rle_trans; [apply Rabs_triang|]. rewrite (Rabs_pos_eq q) by lra. lra. }
  assert (S : forall e m, Rabs (a ^ m - q ^ m) <= e -> Rabs (a ^ S m - q ^ S m) <= (1 + / 1000000) * e + k).
  { intros e m H. cbn [pow]. replace (a * a ^ m - q * q ^ m) with (a * (a ^ m - q ^ m) + (a - q) * q ^ m) by ring. eapply Rle_trans; [apply Rabs_triang|]. rewrite !Rabs_mult.
    assert (0 <= q ^ m <= 1) by (split; [apply Rfunctions.pow_le; lra|rewrite <- (pow1 m); apply pow_incr; lra]). rewrite (Rabs_pos_eq (q ^ m)) by lra.
    assert (Rabs a * Rabs (a ^ m - q ^ m) <= (1 + / 1000000) * e) by (apply Rmult_le_compat; try apply Rabs_pos; lra). assert (Rabs (a - q) * q ^ m <= k * 1) by (apply Rmult_le_compat; try apply Rabs_pos; lra). lra. }
  assert (S1 : Rabs (a ^ 1 - q ^ 1) <= k) by (rewrite !pow_1; exact A). pose proof (S _ _ S1) as S2. pose proof (S _ _ S2) as S3. pose proof (S _ _ S3) as S4. pose proof (S _ _ S4) as S5.
  assert (n = 1 \/ n = 2 \/ n = 3 \/ n = 4 \/ n = 5)%nat as Cn by lia. destruct Cn as [-> | [-> | [-> | [-> | ->]]]]; cbn [INR]; lra.
Qed.
Lemma powi_close (d : fl) q n : powi5_ok prec emax (l_powi L) -> is_finite d = true -> 0 <= q <= 1 -> Rabs (B2R d - q) <= 5 * u -> (2 <= n <= 5)%nat ->
  is_finite (l_powi L d (Z.of_nat n)) = true /\ Rabs (B2R (l_powi L d (Z.of_nat n)) - q ^ n) <= (5 * INR n + 10) * u /\ (B2R d = 0 -> B2R (l_powi L d (Z.of_nat n)) = 0).
Proof.
  intros PI F Q D Nn. destruct (CurveProofs.u24 prec P5) as [U0 U1]. destruct (CurveProofs.eta_le prec emax E5) as [T0 T1].
  pose proof (pow_close (B2R d) q (5 * u) n Q D ltac:(lra) ltac:(lia)) as C.
  assert (D2 : Rabs (B2R d) <= 2). { replace (B2R d) with (q + (B2R d - q)) by ring. eapply Rle_trans; [apply Rabs_triang|]. rewrite (Rabs_pos_eq q) by lra. lra. }
  destruct (PI d n F D2 Nn) as (G & E & Z). split; [exact G|]. split; [|exact Z].
  assert (I : 2 <= INR n <= 5) by (split; [apply (le_INR 2)|apply (Rle_trans _ (INR 5)); [apply le_INR|cbn; lra]]; lia). cbn [INR] in I.
  assert (IU : INR n * (1.01 * (5 * u)) <= 5 * (1.01 * (5 * u))) by (apply Rmult_le_compat_r; lra).
  assert (B : Rabs (B2R d ^ n) <= 1.1). { replace (B2R d ^ n) with (q ^ n + (B2R d ^ n - q ^ n)) by ring. eapply Rle_trans; [apply Rabs_triang|].
    assert (0 <= q ^ n <= 1) by (split; [apply Rfunctions.pow_le; lra|rewrite <- (pow1 n); apply pow_incr; lra]). rewrite (Rabs_pos_eq (q ^ n)) by lra. lra. }
  assert (8 * u * Rabs (B2R d ^ n) <= 8 * u * 1.1) by (apply Rmult_le_compat_l; lra).
  replace (B2R (l_powi L d (Z.of_nat n)) - q ^ n) with ((B2R (l_powi L d (Z.of_nat n)) - B2R d ^ n) + (B2R d ^ n - q ^ n)) by ring. eapply Rle_trans; [apply Rabs_triang|]. lra.
Qed.

(* ---- the extended values ---- *)
Lemma six {A} (l : list A) : (6 <= length l)%nat -> exists a0 a1 a2 a3 a4 a5 r, l = a0 :: a1 :: a2 :: a3 :: a4 :: a5 :: r.
Proof. intro H. do 6 (destruct l as [|? l]; [cbn in H; lia|]). repeat eexists. Qed.
Section V.
Context (M : R) (M1 : tiny <= M) (M2 : M <= bpow radix2 (emax - 30)).
Notation N := (N prec emax M).
Definition fy (vs : list fl) : list fl :=
  [Bdiv mode_NE (@fsum _ ops (@zip_mul _ ops (@coeff_c0 _ ops) vs)) (litd 209.0); Bdiv mode_NE (@fsum _ ops (@zip_mul _ ops (@coeff_c1 _ ops) vs)) (litd 209.0)] ++ vs
  ++ [Bdiv mode_NE (@fsum _ ops (@zip_mul _ ops (rev (@coeff_c2 _ ops)) (rev vs))) (litd 209.0); Bdiv mode_NE (@fsum _ ops (@zip_mul _ ops (rev (@coeff_c3 _ ops)) (rev vs))) (litd 209.0)].
Lemma ends vs : (6 <= length vs)%nat -> (forall v, In v vs -> N v (B2R v) 1 0) ->
  N (Bdiv mode_NE (@fsum _ ops (@zip_mul _ ops (@coeff_c0 _ ops) vs)) (litd 209.0)) (dotp C0 (map B2R vs) / 209) 47 280
  /\ N (Bdiv mode_NE (@fsum _ ops (@zip_mul _ ops (@coeff_c1 _ ops) vs)) (litd 209.0)) (dotp C1 (map B2R vs) / 209) 10 70.
Proof.
  intros H A. destruct (six vs H) as (v0 & v1 & v2 & v3 & v4 & v5 & r & ->).
  assert (B : forall v, In v [v0; v1; v2; v3; v4; v5] -> N v (B2R v) 1 0) by (intros v I; apply A; cbn in I |- *; intuition).
  pose proof (ext_outer prec emax P5 M M1 M2 v0 v1 v2 v3 v4 v5 _ _ _ _ _ _ (B v0 ltac:(cbn; tauto)) (B v1 ltac:(cbn; tauto)) (B v2 ltac:(cbn; tauto)) (B v3 ltac:(cbn; tauto)) (B v4 ltac:(cbn; tauto)) (B v5 ltac:(cbn; tauto))) as X.
  pose proof (ext_inner prec emax P5 M M1 M2 v0 v1 v2 v3 v4 v5 _ _ _ _ _ _ (B v0 ltac:(cbn; tauto)) (B v1 ltac:(cbn; tauto)) (B v2 ltac:(cbn; tauto)) (B v3 ltac:(cbn; tauto)) (B v4 ltac:(cbn; tauto)) (B v5 ltac:(cbn; tauto))) as Y.
  unfold coeff_c0, coeff_c1, zip_mul, fsum. cbn [combine map fold_left]. split; [exact X|exact Y].
Qed.
Lemma rev_c2 : rev (@coeff_c2 _ ops) = @coeff_c1 _ ops. Proof. reflexivity. Qed.
Lemma rev_c3 : rev (@coeff_c3 _ ops) = @coeff_c0 _ ops. Proof. reflexivity. Qed.
Lemma fy_length vs : length (fy vs) = (length vs + 4)%nat.
Proof. unfold fy. rewrite !app_length. cbn [length]. lia. Qed.
Lemma fy_at vs m : (6 <= length vs)%nat -> (forall v, In v vs -> N v (B2R v) 1 0) -> (m < length vs + 4)%nat ->
  exists r, nth_error (fy vs) m = Some r /\ N r (nth m (ext (map B2R vs)) 0) 47 280
    /\ ((1 <= m <= length vs + 2)%nat -> N r (nth m (ext (map B2R vs)) 0) 10 70)
    /\ ((2 <= m <= length vs + 1)%nat -> N r (nth m (ext (map B2R vs)) 0) 1 0 /\ nth_error vs (m - 2) = Some r).
Proof.
  intros H A Hm. destruct (ends vs H A) as [X0 X1]. destruct (ends (rev vs) ltac:(rewrite rev_length; exact H) ltac:(intros v I; apply A; apply in_rev; exact I)) as [Z0 Z1]. rewrite map_rev in Z0, Z1.
  assert (W : forall r e a c, N r e a c -> a <= 47 -> c <= 280 -> N r e 47 280) by (intros; eapply N_weak; [eassumption..|reflexivity|assumption|assumption]).
  assert (W' : forall r e a c, N r e a c -> a <= 10 -> c <= 70 -> N r e 10 70) by (intros; eapply N_weak; [eassumption..|reflexivity|assumption|assumption]).
  unfold fy. rewrite rev_c2, rev_c3. unfold ext. destruct m as [|[|m]].
  - eexists. split; [reflexivity|]. cbn [app nth]. split; [exact X0|]. split; intro; lia.
  - eexists. split; [reflexivity|]. cbn [app nth]. split; [apply (W _ _ 10 70); [exact X1|lra|lra]|]. split; [intros _; exact X1|intro; lia].
  - cbn [app nth nth_error]. destruct (Nat.lt_ge_cases m (length vs)) as [Lm|Lm].
    + destruct (nth_error vs m) as [r|] eqn:E; [|apply nth_error_None in E; lia]. exists r. rewrite nth_error_app1 by exact Lm. split; [exact E|]. rewrite app_nth1 by (rewrite map_length; exact Lm).
      assert (V : nth m (map B2R vs) 0 = B2R r) by (apply nth_error_nth; rewrite nth_error_map, E; reflexivity). rewrite V. pose proof (A r (nth_error_In _ _ E)) as Y.
      split; [apply (W _ _ 1 0); [exact Y|lra|lra]|]. split; [intros _; apply (W' _ _ 1 0); [exact Y|lra|lra]|]. intros _. split; [exact Y|]. replace (S (S m) - 2)%nat with m by lia. exact E.
    + rewrite nth_error_app2 by exact Lm. rewrite app_nth2 by (rewrite map_length; exact Lm). rewrite map_length. assert (Em : (m - length vs = 0 \/ m - length vs = 1)%nat) by lia. destruct Em as [-> | Em].
      * eexists. split; [reflexivity|]. cbn [nth]. split; [apply (W _ _ 10 70); [exact Z1|lra|lra]|]. split; [intros _; exact Z1|intro; lia].
      * rewrite Em. eexists. split; [reflexivity|]. cbn [nth]. split; [exact Z0|]. split; intro; lia.
Qed.

(* ---- one piece ---- *)
Lemma coeff_evaluate dbg (xs ys : list fl) (x xi xi1 r0 r1 r2 r3 r4 r5 : fl) k : @sprague_index _ ops dbg xs x = Ret (k + 2)%nat ->
  nth_error xs (k + 2) = Some xi -> nth_error xs (k + 3) = Some xi1 -> nth_error ys k = Some r0 -> nth_error ys (k + 1) = Some r1 -> nth_error ys (k + 2) = Some r2 -> nth_error ys (k + 3) = Some r3 -> nth_error ys (k + 4) = Some r4 -> nth_error ys (k + 5) = Some r5 ->
  let d := Bdiv mode_NE (Bminus mode_NE x xi) (Bminus mode_NE xi1 xi) in
  @sprague_evaluate _ ops dbg (Sprague xs ys) x = Ret (fseg prec emax r0 r1 r2 r3 r4 r5 d (l_powi L d 2) (l_powi L d 3) (l_powi L d 4) (l_powi L d 5)).
Proof.
  intros I X0 X1 H0 H1 H2 H3 H4 H5. unfold sprague_evaluate. cbn [sp_x sp_y]. rewrite I. cbn [obind]. replace (k + 2 + 1)%nat with (k + 3)%nat by lia.
  rewrite (oindex_some _ _ _ X0), (oindex_some _ _ _ X1). cbn [obind]. unfold coeff_a. rewrite !usize_sub_ok by lia. cbn [obind].
  replace (k + 2 - 2)%nat with k by lia. replace (k + 2 - 1)%nat with (k + 1)%nat by lia. replace (k + 2 + 1)%nat with (k + 3)%nat by lia. replace (k + 2 + 2)%nat with (k + 4)%nat by lia. replace (k + 2 + 3)%nat with (k + 5)%nat by lia.
  rewrite (oindex_some _ _ _ H0), (oindex_some _ _ _ H1), (oindex_some _ _ _ H2), (oindex_some _ _ _ H3), (oindex_some _ _ _ H4), (oindex_some _ _ _ H5). reflexivity.
Qed.
End V.

(* ---- linear interpolation ---- *)
Lemma mult_comm (a b : fl) : is_finite (Bmult mode_NE b a) = true -> is_finite (Bmult mode_NE a b) = true /\ B2R (Bmult mode_NE a b) = B2R (Bmult mode_NE b a).
Proof.
  intro F. pose proof (mult_fin prec emax _ _ F) as (Fb & Fa & E). assert (G : is_finite (Bmult mode_NE a b) = true) by (apply mult_small; try assumption; rewrite Rmult_comm, <- E; apply abs_B2R_lt_emax).
  split; [exact G|]. pose proof (mult_fin prec emax _ _ G) as (_ & _ & E'). rewrite E, E', Rmult_comm. reflexivity.
Qed.
Lemma N_comm M (a b : fl) e x c : N prec emax M (Bmult mode_NE b a) e x c -> N prec emax M (Bmult mode_NE a b) e x c.
Proof. intros (F & A & B). destruct (mult_comm a b F) as [G E]. split; [exact G|]. rewrite E. split; assumption. Qed.
Lemma lerp_err M (d a b : fl) q : tiny <= M -> M <= bpow radix2 (emax - 30) -> is_finite d = true -> 0 <= q <= 1 -> Rabs (B2R d - q) <= 5 * u ->
  is_finite a = true -> is_finite b = true -> Rabs (B2R a) <= M -> Rabs (B2R b) <= M ->
  let r := Bplus mode_NE (Bmult mode_NE (Bminus mode_NE (litd 1.0) d) a) (Bmult mode_NE d b) in
  is_finite r = true /\ Rabs (B2R r - ((1 - q) * B2R a + q * B2R b)) <= 24 * (u * M) /\ (B2R d = 0 -> B2R r = B2R a).
Proof.
  intros M1 M2 Fd Q D Fa Fb Ha Hb. cbv zeta. destruct (CurveProofs.u24 prec P5) as [U0 U1]. destruct (lit_at prec emax P5 1.0 1) as [F1 V1]; [clear; q2r; lra|cbn; lia|].
  assert (DD : Rabs (B2R d) <= 2). { replace (B2R d) with (q + (B2R d - q)) by ring. eapply Rle_trans; [apply Rabs_triang|]. rewrite (Rabs_pos_eq q) by lra. lra. }
  pose proof (rnd_diff prec emax (litd 1.0) d) as R. rewrite V1 in R. apply Rabs_le_inv in DD, D. assert (S : Rabs (1 - B2R d) <= 1.1) by (apply Rabs_le; lra). assert (US : u * Rabs (1 - B2R d) <= u * 1.1) by (apply Rmult_le_compat_l; lra).
  pose proof (Bminus_correct prec emax _ _ mode_NE (litd 1.0) d F1 Fd) as C. cbn [round_mode] in C. rewrite V1 in C. rewrite Rlt_bool_true in C.
  2: { pose proof (CurveProofs.huge emax E5). replace (rnd (1 - B2R d)) with ((1 - B2R d) + (rnd (1 - B2R d) - (1 - B2R d))) by ring. eapply Rle_lt_trans; [apply Rabs_triang|]. lra. }
  destruct C as (V & F & _). assert (D' : Rabs (B2R (Bminus mode_NE (litd 1.0) d) - (1 - q)) <= 7 * u). { rewrite V. apply Rabs_le_inv in R. apply Rabs_le. lra. }
  pose proof (N_exact prec emax M a Fa Ha) as Na. pose proof (N_exact prec emax M b Fb Hb) as Nb.
  pose proof (N_pow prec emax P5 M M1 M2 _ _ _ _ (Bminus mode_NE (litd 1.0) d) (1 - q) 7 Na F D' ltac:(lra) ltac:(lra) ltac:(lra) ltac:(lra)) as Pa. apply N_comm in Pa.
  pose proof (N_pow prec emax P5 M M1 M2 _ _ _ _ d q 5 Nb Fd ltac:(apply Rabs_le; lra) Q ltac:(lra) ltac:(lra) ltac:(lra)) as Pb. apply N_comm in Pb.
  pose proof (N_add prec emax P5 M M1 M2 _ _ _ _ _ _ _ _ Pa Pb ltac:(lra) ltac:(lra) ltac:(lra) ltac:(lra) ltac:(lra) ltac:(lra)) as (G & _ & E). split; [exact G|]. split.
  - replace ((1 - q) * B2R a + q * B2R b) with (B2R a * (1 - q) + B2R b * q) by ring. eapply Rle_trans; [exact E|]. apply Rmult_le_compat_r; [|lra]. apply Rmult_le_pos; [lra|]. pose proof (bpow_gt_0 radix2 (2 - emax)). lra.
  - intro Z. exact (proj2 (proj1 (flerp_ends prec emax (litd 1.0) a b d F1 V1 Fa Fb Fd) Z)).
Qed.

(* ---- the whole interpolation ---- *)
Section W.
Context (ss : list (sample fl)) (sh : spd_shape fl) (W M : R).
Context (W1 : tiny <= W) (W2 : W <= bpow radix2 (emax - 30)) (M1 : tiny <= M) (M2 : M <= bpow radix2 (emax - 30)).
Context (Hn : (6 <= length ss)%nat) (SS : strictly (reals ss)).
Context (FN : forall s, In s ss -> is_finite (s_nm s) = true /\ Rabs (B2R (s_nm s)) <= W /\ is_finite (s_v s) = true /\ Rabs (B2R (s_v s)) <= M).
Let z : fl := B754_zero false.
Let nm k := s_nm (nth k ss (Sample z z)).
Let sv k := s_v (nth k ss (Sample z z)).
Let n := length ss.
Lemma reals_nth k : nth k (reals ss) (0, 0) = (B2R (nm k), B2R (sv k)).
Proof. unfold reals, nm, sv. change (0, 0) with ((fun s : sample fl => (B2R (s_nm s), B2R (s_v s))) (Sample z z)). rewrite map_nth. reflexivity. Qed.
Lemma reals_length : length (reals ss) = n. Proof. apply map_length. Qed.
Lemma nm_lt i j : (i < j)%nat -> (j < n)%nat -> B2R (nm i) < B2R (nm j).
Proof. intros I J. pose proof (strictly_nth (reals ss) i j SS I ltac:(rewrite reals_length; exact J)) as H. rewrite !reals_nth in H. exact H. Qed.
Lemma nm_fin k : (k < n)%nat -> is_finite (nm k) = true /\ Rabs (B2R (nm k)) <= W /\ is_finite (sv k) = true /\ Rabs (B2R (sv k)) <= M.
Proof. intro H. apply FN. apply nth_In. exact H. Qed.
Lemma nm_at k : (k < n)%nat -> nth_error (map s_nm ss) k = Some (nm k).
Proof. intro H. rewrite nth_error_map, (nth_error_nth' ss (Sample z z) H). reflexivity. Qed.
Lemma ltb_fin (x y : fl) : is_finite x = true -> is_finite y = true -> Bltb x y = Rlt_bool (B2R x) (B2R y).
Proof. intros. apply Bltb_correct; assumption. Qed.
(* the step used for the outer points, and the outer points on the left *)
Let step := Bminus mode_NE (nm 1) (nm 0).
Lemma step_ok : is_finite step = true /\ 0 <= B2R step /\ Rabs (B2R step) <= 3 * W.
Proof.
  destruct (nm_fin 0 ltac:(unfold n; lia)) as (F0 & B0 & _). destruct (nm_fin 1 ltac:(unfold n; lia)) as (F1 & B1 & _). pose proof (nm_lt 0 1 ltac:(lia) ltac:(unfold n; lia)) as H. destruct (um prec emax P5 W W1) as (_ & _ & W0). destruct (CurveProofs.u24 prec P5) as [U0 U1].
  apply Rabs_le_inv in B0, B1. assert (S : Rabs (B2R (nm 1) - B2R (nm 0)) <= 2 * W) by (apply Rabs_le; lra).
  pose proof (Bminus_correct prec emax _ _ mode_NE (nm 1) (nm 0) F1 F0) as D1. cbn [round_mode] in D1. rewrite Rlt_bool_true in D1 by (apply (below prec emax P5 W W1 W2); lra). destruct D1 as (V1 & G1 & _).
  split; [exact G1|]. fold step in V1. pose proof (rnd_diff prec emax (nm 1) (nm 0)) as R. rewrite <- V1 in R. split.
  - rewrite V1. apply round_ge_generic; auto with typeclass_instances; [apply generic_format_0|lra].
  - replace (B2R step) with ((B2R (nm 1) - B2R (nm 0)) + (B2R step - (B2R (nm 1) - B2R (nm 0)))) by ring. eapply Rle_trans; [apply Rabs_triang|].
    assert (u * Rabs (B2R (nm 1) - B2R (nm 0)) <= / 10000000 * (2 * W)) by (apply Rmult_le_compat; try apply Rabs_pos; lra). lra.
Qed.
Lemma left_ok (t : fl) : is_finite t = true -> 0 <= B2R t -> Rabs (B2R t) <= 10 * W -> is_finite (Bminus mode_NE (nm 0) t) = true /\ B2R (Bminus mode_NE (nm 0) t) <= B2R (nm 0).
Proof.
  intros Ft T0 TW. destruct (nm_fin 0 ltac:(unfold n; lia)) as (F0 & B0 & _). destruct (um prec emax P5 W W1) as (_ & _ & W0). apply Rabs_le_inv in B0, TW.
  pose proof (Bminus_correct prec emax _ _ mode_NE (nm 0) t F0 Ft) as D1. cbn [round_mode] in D1. rewrite Rlt_bool_true in D1 by (apply (below prec emax P5 W W1 W2), Rabs_le; lra). destruct D1 as (V1 & G1 & _). split; [exact G1|].
  rewrite V1. apply round_le_generic; auto with typeclass_instances; [apply generic_format_B2R|lra].
Qed.
Lemma double_ok : is_finite (Bmult mode_NE step (litd 2.0)) = true /\ 0 <= B2R (Bmult mode_NE step (litd 2.0)) /\ Rabs (B2R (Bmult mode_NE step (litd 2.0))) <= 10 * W.
Proof.
  destruct step_ok as (F & S0 & SW). destruct (um prec emax P5 W W1) as (U0 & UE & W0). destruct (CurveProofs.u24 prec P5) as [_ U1]. destruct (lit_at prec emax P5 2.0 2) as [F2 V2]; [clear; q2r; lra|cbn; lia|]. apply Rabs_le_inv in SW.
  assert (B : Rabs (B2R step * 2) <= 6 * W) by (apply Rabs_le; lra).
  assert (G : is_finite (Bmult mode_NE step (litd 2.0)) = true) by (apply mult_small; try assumption; rewrite V2; apply (below prec emax P5 W W1 W2); lra). split; [exact G|]. apply mult_fin in G. destruct G as (_ & _ & E). rewrite E, V2. split.
  - apply round_ge_generic; auto with typeclass_instances; [apply generic_format_0|lra].
  - pose proof (rnd_any prec emax (B2R step * 2)) as R. replace (rnd (B2R step * 2)) with (B2R step * 2 + (rnd (B2R step * 2) - B2R step * 2)) by ring. eapply Rle_trans; [apply Rabs_triang|].
    assert (u * Rabs (B2R step * 2) <= / 10000000 * (6 * W)) by (apply Rmult_le_compat; try apply Rabs_pos; try lra; apply bpow_ge_0). assert (u * W <= / 10000000 * W) by (apply Rmult_le_compat_r; lra). lra.
Qed.
Definition fx : list fl := [Bminus mode_NE (nm 0) (Bmult mode_NE step (litd 2.0)); Bminus mode_NE (nm 0) step] ++ map s_nm ss ++ [Bplus mode_NE (nm (n - 1)) step; Bplus mode_NE (nm (n - 1)) (Bmult mode_NE step (litd 2.0))].
Lemma new_float : @sprague_new _ ops (Vspd ss sh) = Ret (Sprague fx (fy (map s_v ss))).
Proof using Hn.
  rewrite (new_shape (O := ops) ss sh (nth 0 ss (Sample z z)) (nth 1 ss (Sample z z)) (nth (n - 1) ss (Sample z z))); [reflexivity| | |].
  - clear FN SS. destruct ss as [|a l]; [cbn in Hn; lia|reflexivity].
  - apply nth_error_nth'. clear - Hn. lia.
  - apply last_opt_nth. clear - Hn. intros E. rewrite E in Hn. cbn in Hn. lia.
Qed.
(* which piece: [k] is the sample not right of [x], the last but one at the end *)
Definition on_piece (x : fl) (k : nat) : Prop := (S k < n)%nat /\ B2R (nm k) <= B2R x
  /\ (B2R x < B2R (nm (S k)) \/ (S (S k) = n /\ B2R x = B2R (nm (S k)) /\ B2R (nm (n - 1)) < B2R (Bplus mode_NE (nm (n - 1)) step))).
Lemma index_float dbg x k : is_finite x = true -> on_piece x k -> @sprague_index _ ops dbg fx x = Ret (k + 2)%nat.
Proof.
  intros Fx (Hk & X1 & X2). destruct step_ok as (Fs & S0 & SW). destruct (um prec emax P5 W W1) as (_ & _ & W0). destruct double_ok as (Fd & Dd & DW).
  destruct (left_ok step Fs S0 ltac:(lra)) as [FL2 L2]. destruct (left_ok _ Fd Dd DW) as [FL1 L1].
  assert (N0 : forall i, (i <= k)%nat -> B2R (nm i) <= B2R x). { intros i Hi. destruct (Nat.eq_dec i k) as [->|N]; [exact X1|]. pose proof (nm_lt i k ltac:(lia) ltac:(lia)). lra. }
  assert (A1 : Bltb x (Bminus mode_NE (nm 0) (Bmult mode_NE step (litd 2.0))) = false) by (rewrite ltb_fin by assumption; apply Rlt_bool_false; pose proof (N0 0%nat ltac:(lia)); lra).
  assert (A2 : Bltb x (Bminus mode_NE (nm 0) step) = false) by (rewrite ltb_fin by assumption; apply Rlt_bool_false; pose proof (N0 0%nat ltac:(lia)); lra).
  destruct X2 as [X2|(K2 & X2 & X3)].
  - unfold fx. rewrite (index_any (O := ops) dbg _ _ _ _ x (map s_nm ss) (S k) (nm (S k))); [f_equal; rewrite map_length; fold n; lia|exact A1|exact A2| | | |rewrite map_length; fold n; lia|rewrite map_length; lia].
    + intros i a Hi Ha. rewrite nm_at in Ha by lia. injection Ha as <-. change (Bltb x (nm i) = false). rewrite ltb_fin by (assumption || apply nm_fin; lia). apply Rlt_bool_false. apply N0. lia.
    + rewrite nth_error_app1 by (rewrite map_length; fold n; lia). apply nm_at. lia.
    + change (Bltb x (nm (S k)) = true). rewrite ltb_fin by (assumption || apply nm_fin; lia). apply Rlt_bool_true. exact X2.
  - assert (E : S k = (n - 1)%nat) by lia.
    assert (FL3 : is_finite (Bplus mode_NE (nm (n - 1)) step) = true).
    { destruct (nm_fin (n - 1) ltac:(lia)) as (Fl & Bl & _). apply plus_small; try assumption. apply (below prec emax P5 W W1 W2). eapply Rle_trans; [apply Rabs_triang|]. lra. }
    unfold fx. rewrite (index_any (O := ops) dbg _ _ _ _ x (map s_nm ss) n (Bplus mode_NE (nm (n - 1)) step)); [f_equal; rewrite map_length; fold n; lia|exact A1|exact A2| | | |rewrite map_length; fold n; lia|rewrite map_length; lia].
    + intros i a Hi Ha. rewrite nm_at in Ha by lia. injection Ha as <-. change (Bltb x (nm i) = false). rewrite ltb_fin by (assumption || apply nm_fin; lia). apply Rlt_bool_false.
      destruct (Nat.eq_dec i (S k)) as [->|Ni]; [lra|]. apply N0. lia.
    + rewrite nth_error_app2 by (rewrite map_length; fold n; lia). rewrite map_length. fold n. rewrite Nat.sub_diag. reflexivity.
    + change (Bltb x (Bplus mode_NE (nm (n - 1)) step) = true). rewrite ltb_fin by assumption. apply Rlt_bool_true. rewrite X2, E. exact X3.
Qed.
Lemma fx_at k : (k < n)%nat -> nth_error fx (k + 2) = Some (nm k).
Proof. intro H. unfold fx. rewrite inner_nth by (rewrite map_length; exact H). apply nm_at, H. Qed.
Lemma vals_ok v : In v (map s_v ss) -> N prec emax M v (B2R v) 1 0.
Proof. intro H. apply in_map_iff in H. destruct H as (s & <- & I). destruct (FN s I) as (_ & _ & F & B). apply N_exact; assumption. Qed.
Lemma float_value dbg x k : powi5_ok prec emax (l_powi L) -> is_finite x = true -> on_piece x k -> exists r, @sprague_evaluate _ ops dbg (Sprague fx (fy (map s_v ss))) x = Ret r
  /\ let y := P0 (seg (ext (map snd (reals ss))) (k + 2)) ((B2R x - B2R (nm k)) / (B2R (nm (S k)) - B2R (nm k))) in
     is_finite r = true /\ Rabs (B2R r - y) <= 10500 * (u * M) /\ ((2 <= k)%nat -> (k + 4 <= n)%nat -> Rabs (B2R r - y) <= 1400 * (u * M)) /\ (B2R x = B2R (nm k) -> B2R r = B2R (sv k)).
Proof.
  intros PI Fx HP. pose proof (index_float dbg x k Fx HP) as I. destruct HP as (Hk & X1 & X2). pose proof (nm_lt k (S k) ltac:(lia) Hk) as Lk.
  set (vs := map s_v ss) in *. assert (Lv : length vs = n) by apply map_length. pose proof (fun m H => fy_at M M1 M2 vs m ltac:(rewrite Lv; exact Hn) vals_ok ltac:(rewrite Lv; exact H)) as Y. rewrite Lv in Y.
  replace (map snd (reals ss)) with (map B2R vs) by (unfold vs, reals; rewrite !map_map; reflexivity).
  destruct (Y k ltac:(lia)) as (r0 & E0 & A0 & B0 & C0'). destruct (Y (k + 1)%nat ltac:(lia)) as (r1 & E1 & A1 & B1 & C1'). destruct (Y (k + 2)%nat ltac:(lia)) as (r2 & E2 & A2 & B2 & C2'). destruct (Y (k + 3)%nat ltac:(lia)) as (r3 & E3 & A3 & B3 & C3').
  destruct (Y (k + 4)%nat ltac:(lia)) as (r4 & E4 & A4 & B4 & C4'). destruct (Y (k + 5)%nat ltac:(lia)) as (r5 & E5' & A5 & B5 & C5'). clear Y.
  destruct (nm_fin k ltac:(lia)) as (Fk & Bk & _). destruct (nm_fin (S k) Hk) as (Fk1 & Bk1 & _).
  destruct (dx_err W x (nm k) (nm (S k)) W1 W2 Fx Fk Fk1 Bk Bk1 ltac:(destruct X2 as [X2|(_ & X2 & _)]; lra) Lk) as (Fd & Q & D & Z). cbv zeta in Fd, Q, D, Z.
  eexists. split; [apply (coeff_evaluate dbg fx (fy vs) x (nm k) (nm (S k)) r0 r1 r2 r3 r4 r5 k); try assumption; [apply fx_at; lia|replace (k + 3)%nat with (S k + 2)%nat by lia; apply fx_at, Hk]|].
  cbv zeta. set (d := Bdiv mode_NE _ _) in *. set (q := (B2R x - B2R (nm k)) / (B2R (nm (S k)) - B2R (nm k))) in *.
  destruct (powi_close d q 2 PI Fd Q D ltac:(lia)) as (F2 & D2 & Z2). destruct (powi_close d q 3 PI Fd Q D ltac:(lia)) as (F3 & D3 & Z3). destruct (powi_close d q 4 PI Fd Q D ltac:(lia)) as (F4 & D4 & Z4). destruct (powi_close d q 5 PI Fd Q D ltac:(lia)) as (F5 & D5 & Z5).
  cbn [INR Z.of_nat Pos.of_succ_nat Pos.succ] in *.
  assert (G2 : N prec emax M r2 (nth (k + 2) (ext (map B2R vs)) 0) 1 0 /\ nth_error vs (k + 2 - 2) = Some r2) by (apply C2'; lia). destruct G2 as [G2 V2]. destruct (C3' ltac:(lia)) as [G3 _].
  assert (S : seg (ext (map B2R vs)) (k + 2) = seg6 (nth k (ext (map B2R vs)) 0) (nth (k + 1) (ext (map B2R vs)) 0) (nth (k + 2) (ext (map B2R vs)) 0) (nth (k + 3) (ext (map B2R vs)) 0) (nth (k + 4) (ext (map B2R vs)) 0) (nth (k + 5) (ext (map B2R vs)) 0)).
  { unfold seg. repeat (f_equal; [f_equal; lia|]) || idtac. f_equal; f_equal; lia. }
  rewrite S. clear S.
  assert (D2' : Rabs (B2R (l_powi L d 2) - q ^ 2) <= 20 * u) by lra. assert (D3' : Rabs (B2R (l_powi L d 3) - q ^ 3) <= 25 * u) by lra. assert (D4' : Rabs (B2R (l_powi L d 4) - q ^ 4) <= 30 * u) by lra. assert (D5' : Rabs (B2R (l_powi L d 5) - q ^ 5) <= 35 * u) by lra.
  pose proof (B1 ltac:(lia)) as G1. pose proof (B4 ltac:(lia)) as G4.
  destruct (seg_any prec emax P5 M M1 M2 r0 r1 r2 r3 r4 r5 d _ _ _ _ _ _ _ _ _ _ q Q Fd F2 F3 F4 F5 D D2' D3' D4' D5' A0 G1 G2 G3 G4 A5) as (FR & _ & ER).
  split; [exact FR|]. split; [exact ER|]. split.
  - intros K2 K4. destruct (C0' ltac:(lia)) as [H0 _]. destruct (C1' ltac:(lia)) as [H1 _]. destruct (C4' ltac:(lia)) as [H4 _]. destruct (C5' ltac:(lia)) as [H5 _].
    destruct (seg_inner prec emax P5 M M1 M2 r0 r1 r2 r3 r4 r5 d _ _ _ _ _ _ _ _ _ _ q Q Fd F2 F3 F4 F5 D D2' D3' D4' D5' H0 H1 G2 G3 H4 H5) as (_ & _ & ER'). exact ER'.
  - intro XZ. specialize (Z XZ). assert (V : nth (k + 2) (ext (map B2R vs)) 0 = B2R r2) by (rewrite ext_nth by (rewrite map_length, Lv; lia); apply nth_error_nth; rewrite nth_error_map; replace (k + 2 - 2)%nat with k in V2 by lia; rewrite V2; reflexivity).
    rewrite V in G2. rewrite (seg_knot prec emax P5 M M1 M2 r0 r1 r2 r3 r4 r5 _ _ _ _ _ d _ _ _ _ A0 G1 G2 G3 G4 A5 Fd F2 F3 F4 F5 Z (Z2 Z) (Z3 Z) (Z4 Z) (Z5 Z)).
    f_equal. replace (k + 2 - 2)%nat with k in V2 by lia. unfold vs in V2. rewrite nth_error_map, (nth_error_nth' ss (Sample z z)) in V2 by (fold n; lia). injection V2 as <-. reflexivity.
Qed.

Lemma leb_fin (x y : fl) : is_finite x = true -> is_finite y = true -> Bleb x y = Rle_bool (B2R x) (B2R y).
Proof. intros. apply Bleb_correct; assumption. Qed.
Lemma linear_float x : (1 <= n)%nat -> is_finite x = true -> exists r y, @linear_evaluate _ ops (Vspd ss sh) x = Ret r /\ linear_evaluate (Vspd (FinSamps (reals ss)) (SpdShape (Fin 0) (Fin 0) Varying)) (Fin (B2R x)) = Ret (Fin y)
  /\ is_finite r = true /\ Rabs (B2R r - y) <= 24 * (u * M) /\ (forall k, (k < n)%nat -> B2R x = B2R (nm k) -> B2R r = B2R (sv k)).
Proof.
  clear Hn. intros Hn Fx. assert (Hl : reals ss <> []) by (intro E; apply (f_equal (@length _)) in E; rewrite reals_length in E; cbn in E; lia).
  assert (UM : 0 <= 24 * (u * M)) by (destruct (um prec emax P5 M M1); lra).
  destruct (nm_fin 0 ltac:(lia)) as (F0 & _ & G0 & _). destruct (nm_fin (n - 1) ltac:(lia)) as (Fl & _ & Gl & _).
  assert (INJ : forall i j, (i < n)%nat -> (j < n)%nat -> B2R (nm i) = B2R (nm j) -> i = j).
  { intros i j Hi Hj E. destruct (Nat.lt_trichotomy i j) as [H|[H|H]]; [pose proof (nm_lt i j H Hj); lra|exact H|pose proof (nm_lt j i H Hi); lra]. }
  assert (FO : first_opt ss = Some (nth 0 ss (Sample z z))) by (unfold n in Hn; destruct ss as [|a l]; [cbn in Hn; lia|reflexivity]).
  assert (LO : last_opt ss = Some (nth (n - 1) ss (Sample z z))) by (apply last_opt_nth; intros E; unfold n in Hn; rewrite E in Hn; cbn in Hn; lia).
  unfold linear_evaluate at 1. unfold v_first, v_last. cbn [v_samples]. rewrite FO, LO. cbn [unwrap obind].
  change (s_nm (nth 0 ss (Sample z z))) with (nm 0). change (s_nm (nth (n - 1) ss (Sample z z))) with (nm (n - 1)). change (s_v (nth 0 ss (Sample z z))) with (sv 0). change (s_v (nth (n - 1) ss (Sample z z))) with (sv (n - 1)).
  change (@rle _ ops x (nm 0)) with (Bleb x (nm 0)). rewrite leb_fin by assumption. destruct (Rle_bool_spec (B2R x) (B2R (nm 0))) as [C|C].
  { exists (sv 0), (B2R (sv 0)). split; [reflexivity|]. split; [rewrite (proj1 (linear_outside (reals ss) _ (B2R x) Hl)); rewrite reals_nth; [reflexivity|exact C]|]. split; [exact G0|]. split; [replace (B2R (sv 0) - B2R (sv 0)) with 0 by ring; rewrite Rabs_R0; exact UM|].
    intros k Hk E. f_equal. f_equal. destruct k; [reflexivity|]. pose proof (nm_lt 0 (S k) ltac:(lia) Hk). lra. }
  change (@rle _ ops (nm (n - 1)) x) with (Bleb (nm (n - 1)) x). rewrite leb_fin by assumption. destruct (Rle_bool_spec (B2R (nm (n - 1))) (B2R x)) as [C'|C'].
  { exists (sv (n - 1)), (B2R (sv (n - 1))). split; [reflexivity|]. split; [rewrite (proj2 (linear_outside (reals ss) _ (B2R x) Hl)); rewrite ?reals_length, reals_nth; [reflexivity|exact C|exact C']|]. split; [exact Gl|].
    split; [replace (B2R (sv (n - 1)) - B2R (sv (n - 1))) with 0 by ring; rewrite Rabs_R0; exact UM|].
    intros k Hk E. f_equal. f_equal. destruct (Nat.eq_dec k (n - 1)) as [->|Nk]; [reflexivity|]. pose proof (nm_lt k (n - 1) ltac:(lia) ltac:(lia)). lra. }
  destruct (find_segment (reals ss) (B2R x) Hl) as (k & K1 & K2); [rewrite reals_nth; cbn [fst]; lra|rewrite reals_length, reals_nth; exact C'|]. rewrite reals_length in K1. rewrite !reals_nth in K2. cbn [fst] in K2.
  destruct (nm_fin k ltac:(lia)) as (Fk & Bk & Gk & Vk). destruct (nm_fin (S k) K1) as (Fk1 & Bk1 & Gk1 & Vk1). pose proof (nm_lt k (S k) ltac:(lia) K1) as Lk.
  assert (P : position (fun s => @rlt _ ops x (s_nm s)) ss = Some (S k)).
  { apply (position_some _ _ _ (nth (S k) ss (Sample z z))); [apply nth_error_nth'; exact K1| |].
    - change (Bltb x (nm (S k)) = true). rewrite ltb_fin by assumption. apply Rlt_bool_true. lra.
    - intros j a Hj Ha. rewrite (nth_error_nth' ss (Sample z z)) in Ha by (fold n; lia). injection Ha as <-. change (Bltb x (nm j) = false). rewrite ltb_fin by (assumption || apply nm_fin; lia). apply Rlt_bool_false.
      destruct (Nat.eq_dec j k) as [->|Nj]; [lra|]. pose proof (nm_lt j k ltac:(lia) ltac:(lia)). lra. }
  rewrite P. cbn [unwrap obind]. rewrite usize_sub_ok by lia. cbn [obind]. replace (S k - 1)%nat with k by lia. replace (k + 1)%nat with (S k) by lia.
  assert (K0 : (k < length ss)%nat) by (fold n; lia). rewrite (oindex_some ss k _ (nth_error_nth' ss (Sample z z) K0)), (oindex_some ss (S k) _ (nth_error_nth' ss (Sample z z) K1)). cbn [obind].
  destruct (dx_err W x (nm k) (nm (S k)) W1 W2 Fx Fk Fk1 Bk Bk1 ltac:(lra) Lk) as (Fd & Q & D & Z). cbv zeta in Fd, Q, D, Z.
  destruct (lerp_err M _ (sv k) (sv (S k)) _ M1 M2 Fd Q D Gk Gk1 Vk Vk1) as (FR & ER & ZR). cbv zeta in FR, ER, ZR.
  eexists. eexists. split; [reflexivity|]. split; [rewrite (linear_between (reals ss) _ k); [cbv zeta; rewrite !reals_nth; reflexivity|exact SS|rewrite reals_length; exact K1|rewrite !reals_nth; exact K2]|].
  split; [exact FR|]. split; [exact ER|]. intros j Hj E. assert (j = k) as ->. { destruct (Nat.lt_trichotomy j k) as [H|[H|H]]; [pose proof (nm_lt j k H ltac:(lia)); lra|exact H|]. destruct (Nat.eq_dec j (S k)) as [->|Nj]; [lra|]. pose proof (nm_lt (S k) j ltac:(lia) Hj). lra. }
  exact (ZR (Z E)).
Qed.
End W.

(* ---- the statements ---- *)
Definition zs : sample fl := Sample (B754_zero false) (B754_zero false).
(* finite samples at increasing wavelengths; the bounds W, M on wavelengths and values are neither subnormal nor near overflow *)
Definition tame (ss : list (sample fl)) (W M : R) : Prop := strictly (reals ss)
  /\ (forall s, In s ss -> is_finite (s_nm s) = true /\ Rabs (B2R (s_nm s)) <= W /\ is_finite (s_v s) = true /\ Rabs (B2R (s_v s)) <= M)
  /\ tiny <= W <= bpow radix2 (emax - 30) /\ tiny <= M <= bpow radix2 (emax - 30).
Definition exactly (ss : list (sample fl)) : vspd xr := Vspd (FinSamps (reals ss)) (SpdShape (Fin 0) (Fin 0) Varying).
Definition sprague_close : Prop := forall dbg ss sh W M (x : fl), tame ss W M -> (6 <= length ss)%nat -> is_finite x = true ->
  let n := length ss in let nm k := s_nm (nth k ss zs) in let v k := s_v (nth k ss zs) in
  B2R (nm 0%nat) <= B2R x ->
  B2R x < B2R (nm (n - 1)%nat) \/ (B2R x = B2R (nm (n - 1)%nat) /\ B2R (nm (n - 1)%nat) < B2R (Bplus mode_NE (nm (n - 1)%nat) (Bminus mode_NE (nm 1%nat) (nm 0%nat)))) ->
  exists r y, (let! sp := @sprague_new _ ops (Vspd ss sh) in @sprague_evaluate _ ops dbg sp x) = Ret r
    /\ (let! sp := sprague_new (exactly ss) in sprague_evaluate dbg sp (Fin (B2R x))) = Ret (Fin y)
    /\ is_finite r = true /\ Rabs (B2R r - y) <= 10500 * (u * M)
    /\ (B2R (nm 2%nat) <= B2R x < B2R (nm (n - 3)%nat) -> Rabs (B2R r - y) <= 1400 * (u * M))
    /\ (forall k, (S k < n)%nat -> B2R x = B2R (nm k) -> B2R r = B2R (v k)).
Definition linear_close : Prop := forall ss sh W M (x : fl), tame ss W M -> ss <> [] -> is_finite x = true ->
  exists r y, @linear_evaluate _ ops (Vspd ss sh) x = Ret r /\ linear_evaluate (exactly ss) (Fin (B2R x)) = Ret (Fin y)
    /\ is_finite r = true /\ Rabs (B2R r - y) <= 24 * (u * M)
    /\ (forall k, (k < length ss)%nat -> B2R x = B2R (s_nm (nth k ss zs)) -> B2R r = B2R (s_v (nth k ss zs))).
Lemma linear_all : linear_close.
Proof.
  intros ss sh W M x (S & A & HW & HM) Hl Fx. apply linear_float with (W := W); try assumption; try apply HW; try apply HM. destruct ss; [contradiction|cbn; lia].
Qed.
Lemma sprague_all : powi5_ok prec emax (l_powi L) -> sprague_close.
Proof.
  intros PI dbg ss sh W M x (S & A & (W1 & W2) & M1 & M2) Hn Fx n nm v X1 X2.
  assert (LT : forall i j, (i < j)%nat -> (j < n)%nat -> B2R (nm i) < B2R (nm j)) by (intros; apply nm_lt; assumption).
  assert (OP : exists k, on_piece ss x k /\ (B2R x < B2R (nm (Datatypes.S k)) \/ (Datatypes.S (Datatypes.S k) = n /\ B2R x = B2R (nm (Datatypes.S k))))).
  { destruct X2 as [X2|(X2 & X3)].
    - destruct (find_segment (reals ss) (B2R x)) as (k & K1 & K2); [intro E; apply (f_equal (@length _)) in E; rewrite reals_length in E; cbn in E; lia|rewrite reals_nth; exact X1|rewrite reals_length, reals_nth; exact X2|].
      rewrite reals_length in K1. rewrite !reals_nth in K2. cbn [fst] in K2. exists k. split; [|left; apply K2]. split; [exact K1|]. split; [apply K2|left; apply K2].
    - exists (n - 2)%nat. replace (Datatypes.S (n - 2)) with (n - 1)%nat by (unfold n; lia). split; [|right; split; [unfold n; lia|exact X2]]. split; [fold n; unfold n; lia|]. replace (Datatypes.S (n - 2)) with (n - 1)%nat by (unfold n; lia). split; [pose proof (LT (n - 2)%nat (n - 1)%nat ltac:(unfold n; lia) ltac:(unfold n; lia)); change (B2R (nm (n - 2)%nat) <= B2R x); lra|].
      right. split; [fold n; unfold n; lia|]. split; [exact X2|exact X3]. }
  destruct OP as (k & OP & X3). destruct (float_value ss W M W1 W2 M1 M2 Hn S A dbg x k PI Fx OP) as (r & E & FR & ER & EI & EK). cbv zeta in FR, ER, EI, EK. destruct OP as (Hk & OK & _).
  exists r. eexists. split; [rewrite (new_float ss sh Hn); exact E|].
  split; [unfold exactly; rewrite (exact_value dbg (reals ss) _ k (B2R x)); [rewrite !reals_nth; reflexivity|rewrite reals_length; exact Hn|exact S|rewrite reals_length; exact Hk|rewrite reals_nth; exact OK|rewrite reals_nth, reals_length; exact X3]|].
  cbn [fst]. split; [exact FR|]. split; [exact ER|].
  assert (LE : forall i j, (i < n)%nat -> (j < n)%nat -> B2R (nm i) <= B2R (nm j) -> (i <= j)%nat) by (intros i j Hi Hj H; destruct (Nat.le_gt_cases i j) as [G|G]; [exact G|pose proof (LT j i G Hi); lra]).
  split.
  - intros [H2 H3]. apply EI.
    + destruct (Nat.le_gt_cases 2 k) as [G|G]; [exact G|]. exfalso. destruct X3 as [X3|(Y1 & Y2)]; [|unfold n in Y1; lia]. destruct (Nat.eq_dec (Datatypes.S k) 2) as [Ek|Ek]; [rewrite Ek in X3; lra|]. pose proof (LT (Datatypes.S k) 2%nat ltac:(lia) ltac:(unfold n; lia)). lra.
    + destruct (Nat.le_gt_cases (k + 4) (length ss)) as [G|G]; [exact G|]. exfalso. assert (B2R (nm (n - 3)%nat) <= B2R (nm k)). { destruct (Nat.eq_dec (n - 3) k) as [<-|Nk]; [lra|]. left. apply LT; unfold n in *; lia. } change (B2R (nm k) <= B2R x) in OK. lra.
  - intros j Hj E'. assert (j = k) as ->; [|apply EK; exact E'].
    change (B2R (nm k) <= B2R x) in OK. assert ((k <= j)%nat) by (apply LE; [unfold n in *; lia|lia|lra]). assert ((j < Datatypes.S k)%nat); [|lia]. apply Nat.nle_gt. intro G.
    destruct X3 as [X3|(Y1 & Y2)]; [|assert (Ek : (j = Datatypes.S k)%nat) by lia; lia]. destruct (Nat.eq_dec j (Datatypes.S k)) as [->|Nj]; [lra|]. pose proof (LT (Datatypes.S k) j ltac:(lia) ltac:(lia)). lra.
Qed.
End F.

(* ---- powi as the compiler's run-time library computes it (__powisf2, __powidf2): by squaring ---- *)
Section RT.
Context (prec emax : Z) {Hp : Prec_gt_0 prec} {He : Prec_lt_emax prec emax}.
Notation fl := (binary_float prec emax).
Notation u := (bpow radix2 (- prec)).
Notation eta := (bpow radix2 (2 - emax - prec)).
Context (P5 : (24 <= prec)%Z) (E5 : (128 <= emax)%Z).
Fixpoint rt_loop (b : positive) (a r : fl) : fl := match b with
  | xH => Bmult mode_NE r a
  | xO b => rt_loop b (Bmult mode_NE a a) r
  | xI b => rt_loop b (Bmult mode_NE a a) (Bmult mode_NE r a)
  end.
Definition rt_powi (x : fl) (n : Z) : fl := match n with Zpos b => rt_loop b x Bone | _ => Bone end.
Definition Q (r : fl) (e b c k : R) : Prop := is_finite r = true /\ Rabs e <= b /\ Rabs (B2R r - e) <= c * (u * Rabs e) + k * eta /\ (e = 0 -> B2R r = 0).
Lemma Q_mult r s e f b b' c c' k k' : Q r e b c k -> Q s f b' c' k' -> 0 <= b <= 32 -> 0 <= b' <= 32 -> 0 <= c <= 10 -> 0 <= c' <= 10 -> 0 <= k <= 100 -> 0 <= k' <= 100 ->
  Q (Bmult mode_NE r s) (e * f) (b * b') (c + c' + 1.1) (1.1 * (k * b') + 1.1 * (k' * b) + 2).
Proof.
  intros (Fr & Be & Er & Zr) (Fs & Bf & Es & Zs) B B' C C' KK KK'. destruct (CurveProofs.u24 prec P5) as [U0 U1]. destruct (CurveProofs.eta_le prec emax E5) as [T0 T1].
  set (w := bpow radix2 (- prec)) in *. set (h := bpow radix2 (2 - emax - prec)) in *. set (A := Rabs e) in *. set (D := Rabs f) in *. assert (A0 : 0 <= A) by apply Rabs_pos. assert (D0 : 0 <= D) by apply Rabs_pos.
  assert (HT : h <= / 10000000) by lra. assert (AD : 0 <= A * D) by (apply Rmult_le_pos; assumption).
  assert (S : Rabs (B2R s) <= D + (c' * (w * D) + k' * h)). { replace (B2R s) with (f + (B2R s - f)) by ring. eapply Rle_trans; [apply Rabs_triang|]. fold D. lra. }
  assert (E : Rabs (B2R r * B2R s - e * f) <= (c + c' + 0.01) * (w * (A * D)) + (1.05 * (k * b') + 1.05 * (k' * b) + 0.5) * h).
  { replace (B2R r * B2R s - e * f) with ((B2R r - e) * B2R s + e * (B2R s - f)) by ring. eapply Rle_trans; [apply Rabs_triang|]. rewrite !Rabs_mult. fold A.
    assert (X : Rabs (B2R r - e) * Rabs (B2R s) <= (c * (w * A) + k * h) * (D + (c' * (w * D) + k' * h))) by (apply Rmult_le_compat; try apply Rabs_pos; assumption).
    assert (Y : A * Rabs (B2R s - f) <= A * (c' * (w * D) + k' * h)) by (apply Rmult_le_compat_l; assumption).
    assert (WA : 0 <= w * A) by (apply Rmult_le_pos; lra). assert (WD : 0 <= w * D) by (apply Rmult_le_pos; lra). assert (WAD : 0 <= w * (A * D)) by (apply Rmult_le_pos; lra).
    assert (I1 : c * (w * A) * (c' * (w * D)) <= 0.01 * (w * (A * D))). { replace (c * (w * A) * (c' * (w * D))) with ((c * c' * w) * (w * (A * D))) by ring. apply Rmult_le_compat_r; [exact WAD|]. assert (c * c' <= 10 * 10) by (apply Rmult_le_compat; lra). assert (0 <= c * c') by (apply Rmult_le_pos; lra). assert (c * c' * w <= 100 * / 10000000) by (apply Rmult_le_compat; lra). lra. }
    assert (I2 : c * (w * A) * (k' * h) <= 0.1 * h). { replace (c * (w * A) * (k' * h)) with ((c * k' * (w * A)) * h) by ring. apply Rmult_le_compat_r; [lra|]. assert (0 <= c * k' <= 10 * 100) by (split; [apply Rmult_le_pos; lra|apply Rmult_le_compat; lra]). assert (w * A <= / 10000000 * 32) by (apply Rmult_le_compat; lra). assert (c * k' * (w * A) <= 1000 * (/ 10000000 * 32)) by (apply Rmult_le_compat; lra). lra. }
    assert (I3 : k * h * D <= (k * b') * h). { replace (k * h * D) with (k * D * h) by ring. apply Rmult_le_compat_r; [lra|]. apply Rmult_le_compat_l; lra. }
    assert (I4 : k * h * (c' * (w * D)) <= 0.1 * h). { replace (k * h * (c' * (w * D))) with ((c' * k * (w * D)) * h) by ring. apply Rmult_le_compat_r; [lra|]. assert (0 <= c' * k <= 10 * 100) by (split; [apply Rmult_le_pos; lra|apply Rmult_le_compat; lra]). assert (w * D <= / 10000000 * 32) by (apply Rmult_le_compat; lra). assert (c' * k * (w * D) <= 1000 * (/ 10000000 * 32)) by (apply Rmult_le_compat; lra). lra. }
    assert (I5 : k * h * (k' * h) <= 0.1 * h). { replace (k * h * (k' * h)) with (k * k' * h * h) by ring. apply Rmult_le_compat_r; [lra|]. assert (0 <= k * k' <= 100 * 100) by (split; [apply Rmult_le_pos; lra|apply Rmult_le_compat; lra]). assert (k * k' * h <= 10000 * / 10000000) by (apply Rmult_le_compat; lra). lra. }
    assert (I6 : A * (k' * h) <= (k' * b) * h). { replace (A * (k' * h)) with (k' * A * h) by ring. apply Rmult_le_compat_r; [lra|]. apply Rmult_le_compat_l; lra. }
    assert (0 <= (k * b') * h) by (apply Rmult_le_pos; [apply Rmult_le_pos; lra|lra]). assert (0 <= (k' * b) * h) by (apply Rmult_le_pos; [apply Rmult_le_pos; lra|lra]). lra. }
  set (t := B2R r * B2R s) in *. assert (KB : 0 <= k * b' <= 100 * 32) by (split; [apply Rmult_le_pos; lra|apply Rmult_le_compat; lra]). assert (KB' : 0 <= k' * b <= 100 * 32) by (split; [apply Rmult_le_pos; lra|apply Rmult_le_compat; lra]).
  assert (ADB : A * D <= b * b') by (apply Rmult_le_compat; lra). assert (BB : b * b' <= 32 * 32) by (apply Rmult_le_compat; lra).
  assert (WAD : 0 <= w * (A * D) <= / 10000000 * 1024) by (split; [apply Rmult_le_pos; lra|apply Rmult_le_compat; lra]).
  assert (G1 : 0 <= (c + c' + 0.01) * (w * (A * D)) <= 21 * (/ 10000000 * 1024)) by (split; [apply Rmult_le_pos; lra|apply Rmult_le_compat; lra]).
  assert (G2 : 0 <= (1.05 * (k * b') + 1.05 * (k' * b) + 0.5) * h <= 10000 * / 10000000) by (split; [apply Rmult_le_pos; lra|apply Rmult_le_compat; lra]).
  assert (TB : Rabs t <= A * D + ((c + c' + 0.01) * (w * (A * D)) + (1.05 * (k * b') + 1.05 * (k' * b) + 0.5) * h)). { replace t with (e * f + (t - e * f)) by ring. eapply Rle_trans; [apply Rabs_triang|]. rewrite Rabs_mult. fold A D. lra. }
  pose proof (rnd_any prec emax t) as R. fold w h in R. assert (UT : w * Rabs t <= w * (A * D) + 0.01 * (w * (A * D)) + 0.1 * h).
  { assert (w * Rabs t <= w * (A * D + ((c + c' + 0.01) * (w * (A * D)) + (1.05 * (k * b') + 1.05 * (k' * b) + 0.5) * h))) by (apply Rmult_le_compat_l; lra).
    assert (w * ((c + c' + 0.01) * (w * (A * D))) <= 0.01 * (w * (A * D))). { replace (w * ((c + c' + 0.01) * (w * (A * D)))) with ((w * (c + c' + 0.01)) * (w * (A * D))) by ring. apply Rmult_le_compat_r; [lra|]. assert (w * (c + c' + 0.01) <= / 10000000 * 21) by (apply Rmult_le_compat; lra). lra. }
    assert (w * ((1.05 * (k * b') + 1.05 * (k' * b) + 0.5) * h) <= 0.1 * h). { rewrite <- Rmult_assoc. apply Rmult_le_compat_r; [lra|]. assert (w * (1.05 * (k * b') + 1.05 * (k' * b) + 0.5) <= / 10000000 * 10000) by (apply Rmult_le_compat; lra). lra. }
    lra. }
  assert (G : is_finite (Bmult mode_NE r s) = true).
  { apply mult_small; try assumption. fold t. pose proof (CurveProofs.huge emax E5). replace (round radix2 (SpecFloat.fexp prec emax) ZnearestE t) with (t + (round radix2 (SpecFloat.fexp prec emax) ZnearestE t - t)) by ring. eapply Rle_lt_trans; [apply Rabs_triang|]. lra. }
  pose proof (mult_fin prec emax _ _ G) as (_ & _ & V). fold t in V. split; [exact G|]. split; [rewrite Rabs_mult; fold A D; exact ADB|]. split.
  - rewrite V, (Rabs_mult e f). fold A D w h. replace (round radix2 (SpecFloat.fexp prec emax) ZnearestE t - e * f) with ((round radix2 (SpecFloat.fexp prec emax) ZnearestE t - t) + (t - e * f)) by ring. eapply Rle_trans; [apply Rabs_triang|].
    assert (0 <= (k * b') * h) by (apply Rmult_le_pos; lra). assert (0 <= (k' * b) * h) by (apply Rmult_le_pos; lra). lra.
  - intro EF. rewrite V. unfold t. apply Rmult_integral in EF. destruct EF as [Z|Z]; [rewrite (Zr Z), Rmult_0_l|rewrite (Zs Z), Rmult_0_r]; apply round_0; auto with typeclass_instances.
Qed.
Lemma Q_weak r e e' b b' c c' k k' : Q r e b c k -> e = e' -> b <= b' -> c <= c' -> k <= k' -> Q r e' b' c' k'.
Proof.
  intros (F & B & E & Z) <- HB HC HK. split; [exact F|]. split; [lra|]. split; [|exact Z]. eapply Rle_trans; [exact E|]. pose proof (bpow_gt_0 radix2 (2 - emax - prec)).
  apply Rplus_le_compat; apply Rmult_le_compat_r; try lra. apply Rmult_le_pos; [apply bpow_ge_0|apply Rabs_pos].
Qed.
Lemma Q_one r e b c k : Q r e b c k -> Q (Bmult mode_NE Bone r) e b c k.
Proof. intros (F & B & E & Z). destruct (mult_one prec emax Bone r (is_finite_Bone prec emax _ _) (Bone_correct prec emax _ _) F) as [G V]. split; [exact G|]. rewrite V. split; [exact B|]. split; assumption. Qed.
Lemma rt_powi_ok : powi5_ok prec emax rt_powi.
Proof.
  intros x n F H Hn. assert (X : Q x (B2R x) 2 0 0). { split; [exact F|]. split; [exact H|]. split; [|auto]. replace (B2R x - B2R x) with 0 by ring. rewrite Rabs_R0. lra. }
  assert (X2 : Q (Bmult mode_NE x x) (B2R x ^ 2) 4 1.1 2) by (eapply Q_weak; [apply (Q_mult _ _ _ _ _ _ _ _ _ _ X X); lra|ring|lra|lra|lra]).
  assert (X4 : Q (Bmult mode_NE (Bmult mode_NE x x) (Bmult mode_NE x x)) (B2R x ^ 4) 16 3.3 20) by (eapply Q_weak; [apply (Q_mult _ _ _ _ _ _ _ _ _ _ X2 X2); lra|ring|lra|lra|lra]).
  pose proof (Q_one _ _ _ _ _ X) as Y.
  assert (X3 : Q (Bmult mode_NE (Bmult mode_NE Bone x) (Bmult mode_NE x x)) (B2R x ^ 3) 8 3 10) by (eapply Q_weak; [apply (Q_mult _ _ _ _ _ _ _ _ _ _ Y X2); lra|ring|lra|lra|lra]).
  assert (X5 : Q (Bmult mode_NE (Bmult mode_NE Bone x) (Bmult mode_NE (Bmult mode_NE x x) (Bmult mode_NE x x))) (B2R x ^ 5) 32 5 50) by (eapply Q_weak; [apply (Q_mult _ _ _ _ _ _ _ _ _ _ Y X4); lra|ring|lra|lra|lra]).
  pose proof (bpow_gt_0 radix2 (2 - emax - prec)) as T0. pose proof (bpow_gt_0 radix2 (- prec)) as U0.
  assert (END : forall r b c k, Q r (B2R x ^ n) b c k -> c <= 8 -> k <= 128 -> is_finite r = true /\ Rabs (B2R r - B2R x ^ n) <= 8 * u * Rabs (B2R x ^ n) + 128 * eta /\ (B2R x = 0 -> B2R r = 0)).
  { intros r b c k HQ HC HK. destruct (Q_weak _ _ _ _ _ _ 8 _ 128 HQ eq_refl (Rle_refl _) HC HK) as (G & _ & E & Z). split; [exact G|]. split; [rewrite Rmult_assoc; exact E|]. intro Zx. apply Z. rewrite Zx. apply pow_i. lia. }
  assert (n = 2 \/ n = 3 \/ n = 4 \/ n = 5)%nat as Cn by lia. destruct Cn as [-> | [-> | [-> | ->]]]; cbn [Z.of_nat Pos.of_succ_nat Pos.succ rt_powi rt_loop].
  - exact (END _ _ _ _ (Q_one _ _ _ _ _ X2) ltac:(lra) ltac:(lra)).
  - exact (END _ _ _ _ X3 ltac:(lra) ltac:(lra)).
  - exact (END _ _ _ _ (Q_one _ _ _ _ _ X4) ltac:(lra) ltac:(lra)).
  - exact (END _ _ _ _ X5 ltac:(lra) ltac:(lra)).
Qed.
Definition rt_libm : libm fl := let z := B754_zero false in
  {| l_exp := fun _ => z; l_sin := fun _ => z; l_cos := fun _ => z; l_log10 := fun _ => z; l_powf := fun _ _ => z; l_powi := rt_powi; l_atan2 := fun _ _ => z; l_hypot := fun _ _ => z;
     l_degrees := fun _ => z; l_radians := fun _ => z; l_approx := fun _ _ _ _ => false |}.
End RT.

(* Sprague interpolation anywhere between the first and the last sample: in f32 and in f64 the program
   returns a finite number within 10500 units roundoff of the largest sample of what the same program
   returns in exact arithmetic, within 1400 away from both ends, and the sample itself at every sample
   but the last.  Linear interpolation: within 24 everywhere, the sample itself at every sample. *)
Theorem C97_sprague {K : XConst} : (forall L : libm f32, powi5_ok 24 128 (l_powi L) -> sprague_close 24 128 L (fun q => f64_to_f32 (b_of_Q 53 1024 q)))
  /\ (forall L : libm f64, powi5_ok 53 1024 (l_powi L) -> sprague_close 53 1024 L (b_of_Q 53 1024)).
Proof. split; intros L PI; (apply sprague_all; [lia|lia|exact PI]). Qed.
Theorem C97_linear {K : XConst} : (forall L : libm f32, linear_close 24 128 L (fun q => f64_to_f32 (b_of_Q 53 1024 q)))
  /\ (forall L : libm f64, linear_close 53 1024 L (b_of_Q 53 1024)).
Proof. split; intro L; apply linear_all; lia. Qed.
(* powi by squaring is accurate enough *)
Theorem C97_powi : powi5_ok 24 128 (rt_powi 24 128) /\ powi5_ok 53 1024 (rt_powi 53 1024).
Proof. split; apply rt_powi_ok; lia. Qed.

(* eight samples every 10 nm *)
Definition eight (l : list Z) : list (sample f64) := map (fun p => Sample (b_of_Z 53 1024 (fst p)) (Bdiv mode_NE (b_of_Z 53 1024 (snd p)) (b_of_Z 53 1024 10))) (combine [400; 410; 420; 430; 440; 450; 460; 470]%Z l).
Definition at_nm (l : list Z) (x : Z) : outcome f64 :=
  let ss := eight l in let! sp := @sprague_new _ (f64_ops (rt_libm 53 1024)) (Vspd ss (SpdShape (B754_zero false) (B754_zero false) Varying)) in
  @sprague_evaluate _ (f64_ops (rt_libm 53 1024)) true sp (b_of_Z 53 1024 x).
Definition bits (o : outcome f64) : option (Z * Z) := match o with Ret (B754_finite s m e _) => Some ((if s then Zneg m else Zpos m), e)%Z | _ => None end.

(* a check of the assumptions on given samples *)
Section Ck.
Context (prec emax : Z) {Hp : Prec_gt_0 prec} {He : Prec_lt_emax prec emax}.
Notation fl := (binary_float prec emax).
Fixpoint rising (l : list fl) : bool := match l with a :: (b :: _) as l' => Bltb a b && rising l' | _ => true end.
Definition tame_check (ss : list (sample fl)) (w m : fl) : bool :=
  let lo := binary_normalize prec emax _ _ mode_NE 1 (2 - emax) false in let hi := binary_normalize prec emax _ _ mode_NE 1 (emax - 30) false in
  forallb (fun s => is_finite (s_nm s) && is_finite (s_v s) && Bleb (Babs (s_nm s)) w && Bleb (Babs (s_v s)) m) ss && rising (map s_nm ss)
  && is_finite w && is_finite m && Bleb lo w && Bleb lo m && Bleb w hi && Bleb m hi.
Lemma rising_sorted ss : forallb (fun s : sample fl => is_finite (s_nm s)) ss = true -> rising (map s_nm ss) = true -> strictly (reals prec emax ss).
Proof.
  intros F H. apply Sorted_StronglySorted; [intros a b c; apply Rlt_trans|]. induction ss as [|s ss IH]; [constructor|]. cbn [forallb] in F. apply andb_true_iff in F. destruct F as [F1 F2]. cbn [reals map]. constructor.
  - apply IH; [exact F2|]. destruct ss; [reflexivity|]. cbn [map rising] in H. apply andb_true_iff in H. apply H.
  - destruct ss as [|t ss]; [constructor|]. cbn [map]. constructor. cbn [fst]. cbn [map rising] in H. apply andb_true_iff in H. destruct H as [H _]. cbn [forallb] in F2. apply andb_true_iff in F2.
    rewrite Bltb_correct in H by (exact F1 || apply F2). destruct (Rlt_bool_spec (B2R (s_nm s)) (B2R (s_nm t))); [assumption|discriminate].
Qed.
Lemma pow2_at k : (2 - emax <= k < emax)%Z -> is_finite (binary_normalize prec emax Hp He mode_NE 1 k false) = true /\ B2R (binary_normalize prec emax Hp He mode_NE 1 k false) = bpow radix2 k.
Proof.
  intro H. pose proof (binary_normalize_correct prec emax Hp He mode_NE 1 k false) as C. cbn [round_mode] in C. assert (V : F2R (Float radix2 1 k) = bpow radix2 k) by (unfold F2R; cbn [Fnum Fexp]; ring).
  assert (G : generic_format radix2 (SpecFloat.fexp prec emax) (bpow radix2 k)). { apply generic_format_bpow. unfold SpecFloat.fexp, SpecFloat.emin. pose proof Hp. pose proof He. red in H0, H1. lia. }
  rewrite V, round_generic, Rlt_bool_true in C; auto with typeclass_instances.
  - destruct C as (C1 & C2 & _). split; assumption.
  - rewrite Rabs_pos_eq by apply bpow_ge_0. apply bpow_lt. lia.
Qed.
Lemma tame_by_check ss w m : (32 <= emax)%Z -> tame_check ss w m = true -> tame prec emax ss (B2R w) (B2R m).
Proof.
  intros E H. unfold tame_check in H. rewrite !andb_true_iff in H. destruct H as (((((((A & B) & Fw) & Fm) & L1) & L2) & H1) & H2).
  destruct (pow2_at (2 - emax) ltac:(lia)) as [G1 V1]. destruct (pow2_at (emax - 30) ltac:(lia)) as [G2 V2].
  assert (LE : forall a b : fl, is_finite a = true -> is_finite b = true -> Bleb a b = true -> B2R a <= B2R b) by (intros a b Fa Fb X; rewrite Bleb_correct in X by assumption; destruct (Rle_bool_spec (B2R a) (B2R b)); [assumption|discriminate]).
  rewrite forallb_forall in A. split; [|split; [|split]].
  - apply rising_sorted; [|exact B]. apply forallb_forall. intros s I. specialize (A s I). rewrite !andb_true_iff in A. apply A.
  - intros s I. specialize (A s I). rewrite !andb_true_iff in A. destruct A as (((A1 & A2) & A3) & A4). apply LE in A3; [|rewrite is_finite_Babs; exact A1|exact Fw]. apply LE in A4; [|rewrite is_finite_Babs; exact A2|exact Fm]. rewrite B2R_Babs in A3, A4. repeat split; assumption.
  - rewrite <- V1, <- V2. split; apply LE; assumption.
  - rewrite <- V1, <- V2. split; apply LE; assumption.
Qed.
End Ck.

Example C97_tame : tame 53 1024 (eight [1; 2; 3; 4; 5; 6; 7; 8]%Z) (B2R (b_of_Z 53 1024 470)) (B2R (b_of_Z 53 1024 1)).
Proof. apply (tame_by_check 53 1024); [lia|vm_compute; reflexivity]. Qed.
(* at 430 nm the fourth sample, 0.4, bit for bit; half way to the next, 0.45 plus one unit in the last place *)
Example C97_run : bits (at_nm [1; 2; 3; 4; 5; 6; 7; 8]%Z 430) = bits (Ret (b_of_Q 53 1024 0.4)) /\ bits (at_nm [1; 2; 3; 4; 5; 6; 7; 8]%Z 435) = Some (8106479329266894, -54)%Z.
Proof. split; vm_compute; reflexivity. Qed.
(* the last sample is not returned: 0.8 comes back five units in the last place lower *)
Definition run97 (ss : list (sample f64)) (x : f64) : outcome f64 :=
  let! sp := @sprague_new _ (f64_ops (rt_libm 53 1024)) (Vspd ss (SpdShape (B754_zero false) (B754_zero false) Varying)) in @sprague_evaluate _ (f64_ops (rt_libm 53 1024)) true sp x.
Lemma lower_ret (o : outcome f64) (v : f64) : match o with Ret r => is_finite r && Bltb r v | _ => false end = true -> is_finite v = true -> exists r, B2R r <> B2R v /\ o = Ret r.
Proof.
  intros H F. destruct o as [r| |]; try discriminate. apply andb_true_iff in H. destruct H as [G H]. exists r. split; [|reflexivity].
  rewrite Bltb_correct in H by assumption. destruct (Rlt_bool_spec (B2R r) (B2R v)) as [A|A]; [lra|discriminate].
Qed.
Theorem C97_last_refuted : exists (ss : list (sample f64)) W M, tame 53 1024 ss W M /\ length ss = 8%nat
  /\ exists r, B2R r <> B2R (s_v (nth 7 ss (zs 53 1024))) /\ run97 ss (s_nm (nth 7 ss (zs 53 1024))) = Ret r.
Proof.
  exists (eight [1; 2; 3; 4; 5; 6; 7; 8]%Z), (B2R (b_of_Z 53 1024 470)), (B2R (b_of_Z 53 1024 1)). split; [apply C97_tame|]. split; [reflexivity|].
  apply lower_ret; vm_compute; reflexivity.
Qed.
