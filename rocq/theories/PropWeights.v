(* C63, C76: the E2022 weighting table and its E308 adjustment (vspd.rs 528-684) in exact arithmetic *)
From Coq Require Import Reals ZArith QArith Qreals Lra Lia List Bool.
From Flocq Require Import Core.
From Verif Require Import Outcome RealOps MathModel ColorModel InterpModel VspdModel XReal SpecLin VspdProofs PropShape SpragueProofs LagrangeProofs WeightProofs.
Import ListNotations.
Open Scope R_scope.

Section W.
Context {K : XConst}.

Lemma step_by_fin I l : (1 <= I)%nat -> (1 <= length l)%nat ->
  step_by I (Fins l) = Ret (Fins (map (fun j => nth (I * j) l 0) (seq 0 ((length l - 1) / I + 1)))).
Proof.
  intros HI Hl. unfold step_by. destruct I as [|I']; [lia|]. set (I := Datatypes.S I') in *.
  rewrite (step_from_spec I (Fin 0) HI (length l)); [|unfold Fins; apply map_length|exact Hl].
  f_equal. unfold Fins. rewrite map_map. apply map_ext. intro j. apply map_nth.
Qed.
Lemma rows3_length i : length (rows3 i) = (Z.to_nat (Zfloor i) - 1)%nat.
Proof. unfold rows3. rewrite map_length, seq_length. reflexivity. Qed.
Lemma rows4_length i : length (rows4 i) = (Z.to_nat (Zfloor i) - 1)%nat.
Proof. unfold rows4. rewrite map_length, seq_length. reflexivity. Qed.
Lemma nth_map_seq {A} (F : nat -> A) n j d : (j < n)%nat -> nth j (map F (seq 0 n)) d = F j.
Proof. intro H. rewrite nth_indep with (d' := F 0%nat) by (rewrite map_length, seq_length; exact H). rewrite map_nth, seq_nth by exact H. reflexivity. Qed.
Lemma rows3_nth i j : (j < Z.to_nat (Zfloor i) - 1)%nat -> nth j (rows3 i) [] = lag3 (rowpos i j).
Proof. apply (nth_map_seq (fun k => lag3 (rowpos i k))). Qed.
Lemma rows4_nth i j : (j < Z.to_nat (Zfloor i) - 1)%nat -> nth j (rows4 i) [] = lag4 (rowpos i j + 1).
Proof. apply (nth_map_seq (fun k => lag4 (rowpos i k + 1))). Qed.

(* the table for the coarse interval i over m fine samples with products f, before scaling *)
Definition table (i : R) (m : nat) (f : nat -> R) : list R :=
  let I := Z.to_nat (Zfloor i) in weights I ((m - 1) / I) m (rows3 i) (rows4 i) f.

Lemma channel_fin i m s y : 3 <= i -> (2 * Z.to_nat (Zfloor i) + 1 <= m)%nat -> length s = m -> length y = m ->
  let I := Z.to_nat (Zfloor i) in let n := ((m - 1) / I)%nat in
  weights_channel I m (n + 1) (map Fins (rows3 i)) (map Fins (rows4 i)) (Fins s) (Fins y) (Fins (base I n (prod s y))) = Ret (Fins (table i m (prod s y))).
Proof.
  intros Hi Hm Ls Ly I n. pose proof (floor_nat_ge i 3 ltac:(cbn; lra)) as N3. fold I in N3, Hm.
  apply weights_channel_fin; try assumption; try lia.
  - apply Nat.div_le_lower_bound; lia.
  - apply rows3_length.
  - apply rows4_length.
  - intros j Hj. rewrite rows3_nth by exact Hj. reflexivity.
  - intros j Hj. rewrite rows4_nth by exact Hj. reflexivity.
  - unfold base. rewrite map_length, seq_length. reflexivity.
Qed.

Lemma factors_fin c ill sh i m s cx cy cz : 3 <= i -> i < 18446744073709551616 -> (2 * Z.to_nat (Zfloor i) + 1 <= m)%nat ->
  sh_interval (cmf_shape c) = Uniform (Fin 1) -> v_interval ill = Uniform (Fin 1) -> sh_interval sh = Uniform (Fin i) ->
  v_values ill = Fins s -> v_values (x_bar c) = Fins cx -> v_values (y_bar c) = Fins cy -> v_values (z_bar c) = Fins cz ->
  length s = m -> length cx = m -> length cy = m -> length cz = m -> rsum (table i m (prod s cy)) <> 0 ->
  let k := 100 / rsum (table i m (prod s cy)) in
  weighting_factors_astme2022 c ill sh = Ret (Fins (map (Rmult k) (table i m (prod s cx))), Fins (map (Rmult k) (table i m (prod s cy))), Fins (map (Rmult k) (table i m (prod s cz)))).
Proof.
  intros Hi Hi2 Hm Sc Si Ss Es Ex Ey Ez Ls Lx Ly Lz NZ k. unfold weighting_factors_astme2022. rewrite Sc.
  replace (req (Fin 1) (rlitd 1.0)) with true by (rewrite x_litd, x_eq; symmetry; apply Reqb_true; clear; q2r; lra). cbn [negb].
  rewrite Si. cbn [interval_eqb]. replace (req (Fin 1) (Fin 1)) with true by (rewrite x_eq; symmetry; apply Reqb_true; reflexivity). cbn [negb].
  rewrite Ex, Ey, Ez, Es, Ss. cbv zeta. destruct (rows_fin i Hi Hi2) as [-> ->]. cbn [obind]. rewrite as_usize_fin by lra.
  pose proof (floor_nat_ge i 3 ltac:(cbn; lra)) as N3. set (I := Z.to_nat (Zfloor i)) in *.
  rewrite !step_by_fin by lia. cbn [obind]. rewrite Ls, Lx, Ly, Lz.
  assert (B : forall y, zip_mul (Fins (map (fun j => nth (I * j) s 0) (seq 0 ((m - 1) / I + 1)))) (Fins (map (fun j => nth (I * j) y 0) (seq 0 ((m - 1) / I + 1)))) = Fins (base I ((m - 1) / I) (prod s y))).
  { intro y. rewrite zip_mul_fin. f_equal. unfold base. generalize (seq 0 ((m - 1) / I + 1)). induction l as [|j l IH]; [reflexivity|]. cbn [map combine]. rewrite IH. reflexivity. }
  rewrite !B. assert (FL : forall l, length (Fins l) = length l) by (intro; apply map_length). rewrite !FL, Lx. rewrite usize_sub_ok by lia. cbn [obind].
  replace (length (base I ((m - 1) / I) (prod s cx))) with ((m - 1) / I + 1)%nat by (unfold base; rewrite map_length, seq_length; reflexivity).
  pose proof (channel_fin i m s cx Hi Hm Ls Lx) as CX. pose proof (channel_fin i m s cy Hi Hm Ls Ly) as CY. pose proof (channel_fin i m s cz Hi Hm Ls Lz) as CZ.
  cbv zeta in CX, CY, CZ. fold I in CX, CY, CZ. rewrite CX. cbn [obind]. rewrite CY. cbn [obind]. rewrite CZ. cbn [obind]. rewrite fsum_fin, x_litd, x_div by exact NZ.
  replace (Q2R 100.0) with 100 by (clear; q2r; lra). fold k.
  assert (E : forall w, map (fun x => rmul x (Fin k)) (Fins w) = Fins (map (Rmult k) w)).
  { intro w. unfold Fins. rewrite !map_map. apply map_ext. intro x. rewrite x_mul. f_equal. ring. }
  rewrite !E. reflexivity.
Qed.

Lemma sumf_prod s : forall y, length y = length s -> sumf (prod s y) 0 (length s) = dotp s y.
Proof.
  induction s as [|a s IH]; intros y L; destruct y as [|b y]; try discriminate; [reflexivity|].
  cbn [length dotp]. rewrite sumf_S. rewrite <- IH by (cbn in L; lia). f_equal. apply (sumf_shift (prod (a :: s) (b :: y)) 1 0).
Qed.
Lemma dotp_ones w : dotp w (map (fun _ => 1) (seq 0 (length w))) = rsum w.
Proof.
  rewrite <- (seq_length (length w) 0) at 1. generalize 0%nat. induction w as [|a w IH]; intro q; [reflexivity|].
  cbn [length seq map dotp]. rewrite seq_length. rewrite <- (seq_length (length w) (Datatypes.S q)) at 1. rewrite IH. unfold rsum. cbn. ring.
Qed.
Lemma table_length i m f : length (table i m f) = ((m - 1) / Z.to_nat (Zfloor i) + 1)%nat.
Proof. apply weights_length. Qed.
Lemma fine_bounds I m : (1 <= I)%nat -> (2 * I + 1 <= m)%nat -> (2 <= (m - 1) / I)%nat /\ (I * ((m - 1) / I) + 1 <= m)%nat /\ (m <= I * ((m - 1) / I) + I)%nat.
Proof.
  intros HI Hm. split; [apply Nat.div_le_lower_bound; lia|]. pose proof (Nat.div_mod (m - 1) I ltac:(lia)). pose proof (Nat.mod_upper_bound (m - 1) I ltac:(lia)). lia.
Qed.
Lemma table_sum i m f : 3 <= i -> (2 * Z.to_nat (Zfloor i) + 1 <= m)%nat -> rsum (table i m f) = sumf f 0 m.
Proof.
  intros Hi Hm. pose proof (floor_nat_ge i 3 ltac:(cbn; lra)) as N3. rewrite <- dotp_ones, table_length. unfold table.
  destruct (fine_bounds (Z.to_nat (Zfloor i)) m ltac:(lia) Hm) as (B1 & B2 & _).
  rewrite (weights_total _ _ _ _ _ _ (fun _ => 1) (fun _ => 1)); try assumption; try lia; try reflexivity.
  - apply sumf_ext. intros. ring.
  - intros j Hj. unfold coef. rewrite rows3_nth by exact Hj. unfold sumf, rsum, lag3. cbn. field.
  - intros j Hj. unfold coef. rewrite rows3_nth by exact Hj. unfold sumf, rsum, lag3. cbn. field.
  - intros j k _ Hk. unfold coef. rewrite rows4_nth by exact Hk. unfold sumf, rsum, lag4. cbn. field.
Qed.
(* hypotheses shared by the theorems: a CMF and an illuminant on the same m fine wavelengths 1 nm apart *)
Definition fine (c : cmf xr) (ill : vspd xr) (m : nat) (s cx cy cz : list R) : Prop :=
  sh_interval (cmf_shape c) = Uniform (Fin 1) /\ v_interval ill = Uniform (Fin 1)
  /\ v_values ill = Fins s /\ v_values (x_bar c) = Fins cx /\ v_values (y_bar c) = Fins cy /\ v_values (z_bar c) = Fins cz
  /\ length s = m /\ length cx = m /\ length cy = m /\ length cz = m.

Lemma rsum_map_scale k w : rsum (map (Rmult k) w) = k * rsum w.
Proof. rewrite rsum_scale, map_id. reflexivity. Qed.

Theorem C63_weights_conserve c ill sh i m s cx cy cz : fine c ill m s cx cy cz -> sh_interval sh = Uniform (Fin i) ->
  3 <= i -> i < 18446744073709551616 -> (2 * Z.to_nat (Zfloor i) + 1 <= m)%nat -> dotp s cy <> 0 ->
  exists wx wy wz, weighting_factors_astme2022 c ill sh = Ret (Fins wx, Fins wy, Fins wz)
    /\ length wx = ((m - 1) / Z.to_nat (Zfloor i) + 1)%nat /\ length wy = length wx /\ length wz = length wx
    /\ rsum wx = 100 * (dotp s cx / dotp s cy) /\ rsum wy = 100 /\ rsum wz = 100 * (dotp s cz / dotp s cy).
Proof.
  intros (Sc & Si & Es & Ex & Ey & Ez & Ls & Lx & Ly & Lz) Ss Hi Hi2 Hm NZ.
  assert (T : forall y, length y = m -> rsum (table i m (prod s y)) = dotp s y).
  { intros y L. rewrite table_sum by assumption. rewrite <- (sumf_prod s y) by congruence. rewrite Ls. reflexivity. }
  do 3 eexists. split; [eapply factors_fin; try eassumption; rewrite T by assumption; exact NZ|].
  rewrite !map_length, !table_length. split; [reflexivity|]. split; [reflexivity|]. split; [reflexivity|].
  rewrite !rsum_map_scale, !T by assumption. repeat split; field; exact NZ.
Qed.

(* tables that are not at 1 nm, a light at another spacing and a varying target are refused *)
Theorem C63_needs_1nm c ill sh r : weighting_factors_astme2022 c ill sh = Ret r ->
  sh_interval (cmf_shape c) = Uniform (Fin 1) /\ v_interval ill = Uniform (Fin 1) /\ exists i, sh_interval sh = Uniform i.
Proof.
  unfold weighting_factors_astme2022. rewrite x_litd. destruct (sh_interval (cmf_shape c)) as [ci|]; [|discriminate].
  destruct (req ci (Fin (Q2R 1.0))) eqn:E1; [|discriminate]. cbn [negb].
  assert (C1 : ci = Fin 1). { destruct ci as [x|]; try discriminate. rewrite x_eq in E1. destruct (Reqb_spec x (Q2R 1.0)) as [E|]; [|discriminate]. f_equal. rewrite E. clear; q2r; lra. }
  destruct (v_interval ill) as [vi|]; cbn [interval_eqb negb]; [|discriminate].
  destruct (req vi ci) eqn:E2; [|discriminate]. cbn [negb]. intro H. split; [rewrite C1; reflexivity|]. split.
  - f_equal. rewrite C1 in E2. destruct vi as [x|]; try discriminate. rewrite x_eq in E2. destruct (Reqb_spec x 1) as [E|]; [|discriminate]. f_equal. exact E.
  - destruct (sh_interval sh) as [i|]; [exists i; reflexivity|discriminate].
Qed.

(* with fewer than three coarse points the loops underflow or index out of range *)
Theorem C63_short_table_panics c ill sh i m s cx cy cz : fine c ill m s cx cy cz -> sh_interval sh = Uniform (Fin i) ->
  3 <= i -> i < 18446744073709551616 -> (m <= 2 * Z.to_nat (Zfloor i))%nat -> weighting_factors_astme2022 c ill sh = Panic.
Proof.
  intros (Sc & Si & Es & Ex & Ey & Ez & Ls & Lx & Ly & Lz) Ss Hi Hi2 Hm. unfold weighting_factors_astme2022. rewrite Sc.
  replace (req (Fin 1) (rlitd 1.0)) with true by (rewrite x_litd, x_eq; symmetry; apply Reqb_true; clear; q2r; lra). cbn [negb].
  rewrite Si. cbn [interval_eqb]. replace (req (Fin 1) (Fin 1)) with true by (rewrite x_eq; symmetry; apply Reqb_true; reflexivity). cbn [negb].
  rewrite Ex, Ey, Ez, Es, Ss. cbv zeta. destruct (rows_fin i Hi Hi2) as [-> ->]. cbn [obind]. rewrite as_usize_fin by lra.
  pose proof (floor_nat_ge i 3 ltac:(cbn; lra)) as N3. set (I := Z.to_nat (Zfloor i)) in *.
  assert (FL : forall l, length (Fins l) = length l) by (intro; apply map_length).
  destruct (Nat.eq_dec m 0) as [M0|M0].
  { assert (ZZ : forall l : list R, length l = m -> step_by I (Fins l) = Ret []).
    { intros l L. destruct l; [|cbn in L; lia]. unfold step_by. destruct I; [lia|reflexivity]. }
    rewrite !ZZ by assumption. cbn [obind]. rewrite FL, Lx, M0. reflexivity. }
  rewrite !step_by_fin by lia. cbn [obind]. rewrite Ls, Lx, Ly, Lz.
  rewrite zip_mul_fin. rewrite !FL, Lx. rewrite usize_sub_ok by lia. cbn [obind].
  set (w := map _ (combine _ _)). assert (Lw : length w = ((m - 1) / I + 1)%nat) by (unfold w; rewrite map_length, combine_length, !map_length, seq_length; lia).
  enough (E : weights_channel I m (length w) (map Fins (rows3 i)) (map Fins (rows4 i)) (Fins s) (Fins cx) (Fins w) = Panic) by (rewrite E; reflexivity).
  unfold weights_channel. rewrite map_length, rows4_length. fold I. rewrite Lw.
  pose proof (Nat.div_mod (m - 1) I ltac:(lia)) as DM. pose proof (Nat.mod_upper_bound (m - 1) I ltac:(lia)) as MB.
  assert (Q : (((m - 1) / I) < 2)%nat) by (apply Nat.div_lt_upper_bound; lia).
  rewrite usize_sub_ok by lia. cbn [obind]. rewrite usize_sub_ok by lia. cbn [obind].
  destruct ((m - 1) / I)%nat as [|[|q]] eqn:Eq; [|clear Q|lia].
  - rewrite usize_sub_bad by lia. reflexivity.
  - rewrite usize_sub_ok by lia. cbn [obind Nat.add]. rewrite usize_sub_ok by lia. cbn [obind Nat.sub].
    enough (E : ofold (fun w0 j => ofold (fun w1 k => let! t := wterm (map Fins (rows3 i)) j k (Fins s) (Fins cx) (j + 1) in vec_add w1 k t) (seq 0 3) w0) (seq 0 (I - 1)) (Fins w) = Panic) by (rewrite E; reflexivity).
    destruct (I - 1)%nat as [|r] eqn:Er; [lia|]. cbn [seq ofold].
    assert (LR : length (nth 0 (rows3 i) []) = 3%nat) by (rewrite rows3_nth by (fold I; lia); reflexivity).
    assert (L3 : (0 < length (rows3 i))%nat) by (rewrite rows3_length; fold I; lia).
    rewrite (wterm_fin _ _ _ _ _ _ 3) by (assumption || lia). cbn [obind]. rewrite vec_add_fin by lia. cbn [obind].
    rewrite (wterm_fin _ _ _ _ _ _ 3) by (assumption || lia). cbn [obind]. rewrite vec_add_fin by (rewrite list_upd_length; lia). cbn [obind].
    rewrite (wterm_fin _ _ _ _ _ _ 3) by (assumption || lia). cbn [obind]. unfold vec_add at 1. rewrite FL, !list_upd_length, Lw. reflexivity.
Qed.

(* trimming the table to a measured range *)
Lemma as_usize_bounds x : 0 <= INR (as_usize (Fin x)) <= Rmax 0 x.
Proof.
  split; [apply pos_INR|]. unfold as_usize. cbn. unfold usize_max. rewrite INR_IZR_INZ.
  destruct (Rle_dec 0 x) as [P|P].
  - rewrite Rmax_right by exact P. rewrite Ztrunc_floor by exact P. assert (0 <= Zfloor x)%Z by (apply Zfloor_lub; exact P).
    rewrite Z2Nat.id by lia. apply Rle_trans with (IZR (Zfloor x)); [|apply Zfloor_lb]. apply IZR_le. lia.
  - rewrite Rmax_left by lra. assert (T : (Ztrunc x <= 0)%Z) by (rewrite Ztrunc_ceil by lra; apply Zceil_glb; lra).
    match goal with |- IZR (Z.of_nat (Z.to_nat ?z)) <= 0 => replace (Z.to_nat z) with 0%nat by lia end. cbn. lra.
Qed.
Theorem C63_trim_conserves (wx wy wz : list R) i rs re ts te j : 0 < i -> wx <> [] -> length wy = length wx -> length wz = length wx ->
  re = rs + i * INR (length wx - 1) -> ts <= te -> ts <= re -> rs <= te ->
  exists wx' wy' wz', adjust_weighting_factors_astme308 (Fins wx) (Fins wy) (Fins wz) (shape rs re i) (SpdShape (Fin ts) (Fin te) j) = Ret (Fins wx', Fins wy', Fins wz')
    /\ rsum wx' = rsum wx /\ rsum wy' = rsum wy /\ rsum wz' = rsum wz
    /\ length wx' = (length wx - as_usize (Fin ((ts - rs) / i)) - as_usize (Fin ((re - te) / i)))%nat
    /\ length wy' = length wx' /\ length wz' = length wx'
    /\ (forall d q, (0 < q)%nat -> (q + 1 < length wx')%nat -> nth q wy' d = nth (q + as_usize (Fin ((ts - rs) / i))) wy 0).
Proof.
  intros Hi Hw Ly Lz Er H1 H2 H3. unfold adjust_weighting_factors_astme308, shape. cbn [sh_interval sh_start sh_end].
  rewrite !x_sub, !x_div by lra. set (a := as_usize (Fin ((ts - rs) / i))). set (b := as_usize (Fin ((re - te) / i))).
  assert (L0 : (1 <= length wx)%nat) by (destruct wx; [congruence|cbn; lia]).
  assert (AB : (a + b < length wx)%nat).
  { pose proof (as_usize_bounds ((ts - rs) / i)) as [_ A]. pose proof (as_usize_bounds ((re - te) / i)) as [_ B]. fold a in A. fold b in B.
    assert (Ea : (ts - rs) / i * i = ts - rs) by (field; lra). assert (Eb : (re - te) / i * i = re - te) by (field; lra).
    assert (U : INR a + INR b <= INR (length wx - 1)).
    { apply (Rmult_le_reg_r i); [exact Hi|]. pose proof (pos_INR (length wx - 1)).
      apply (Rmult_le_compat_r i) in A; [|lra]. apply (Rmult_le_compat_r i) in B; [|lra]. assert (0 <= i * INR (length wx - 1)) by (apply Rmult_le_pos; lra).
      unfold Rmax in A, B. rewrite Rmult_plus_distr_r. destruct (Rle_dec 0 ((ts - rs) / i)), (Rle_dec 0 ((re - te) / i)); lra. }
    rewrite <- plus_INR in U. apply INR_le in U. lia. }
  rewrite !adjust_channel_fin by lia. cbn [obind]. do 3 eexists. split; [reflexivity|].
  rewrite !trimw_sum by lia. rewrite !trimw_length. split; [reflexivity|]. split; [reflexivity|]. split; [reflexivity|].
  split; [lia|]. split; [lia|]. split; [lia|]. intros d q Q1 Q2. unfold trimw.
  rewrite nth_indep with (d' := (fun j0 : nat => nth j0 wy 0 + (if Nat.eqb j0 a then sumf (fun j1 : nat => nth j1 wy 0) 0 a else 0) + (if Nat.eqb j0 (length wy - b - 1) then sumf (fun j1 : nat => nth j1 wy 0) (length wy - b) b else 0)) 0%nat) by (rewrite map_length, seq_length; lia).
  rewrite map_nth with (d := 0%nat). rewrite seq_nth by lia.
  destruct (Nat.eqb_spec (a + q) a); [lia|]. destruct (Nat.eqb_spec (a + q) (length wy - b - 1)); [lia|]. rewrite (Nat.add_comm q a). ring.
Qed.

(* C76: a spectrum quadratic in wavelength is integrated by the table exactly as by 1 nm summation
   (beyond the last coarse point it is held constant) *)
Lemma table_quadratic I m f p : (3 <= I)%nat -> (2 * I + 1 <= m)%nat -> (length p <= 3)%nat ->
  let n := ((m - 1) / I)%nat in
  dotp (table (INR I) m f) (map (fun j => pol p (INR (I * j))) (seq 0 (n + 1))) = sumf (fun t => f t * pol p (INR (Nat.min t (I * n)))) 0 m.
Proof.
  intros HI Hm Hp n. unfold table. replace (Zfloor (INR I)) with (Z.of_nat I) by (rewrite INR_IZR_INZ, Zfloor_IZR; reflexivity). rewrite Nat2Z.id.
  assert (FI : Z.to_nat (Zfloor (INR I)) = I) by (rewrite INR_IZR_INZ, Zfloor_IZR; apply Nat2Z.id).
  destruct (fine_bounds I m ltac:(lia) Hm) as (B1 & B2 & B3). fold n in B1, B2, B3.
  assert (P : 0 < INR I) by (apply lt_0_INR; lia).
  assert (X : exists a b c, forall x, pol p x = a + x * (b + x * c)).
  { destruct p as [|a [|b [|c [|d p']]]]; cbn in Hp; try lia; [exists 0, 0, 0|exists a, 0, 0|exists a, b, 0|exists a, b, c]; intro x; cbn; ring. }
  destruct X as (qa & qb & qc & X).
  rewrite (weights_total _ _ _ _ _ _ (fun j => pol p (INR (I * j))) (fun t => pol p (INR (Nat.min t (I * n))))); try assumption; try lia; try reflexivity.
  - intros j Hj. unfold coef. rewrite rows3_nth by (rewrite FI; exact Hj). rewrite rowpos_int by lia.
    rewrite Nat.min_l by nia. unfold sumf, rsum, lag3. cbn [seq map fold_right nth]. rewrite !X, !mult_INR. cbn [INR]. field. lra.
  - intros j Hj. unfold coef. rewrite rows3_nth by (rewrite FI; exact Hj). rewrite rowpos_int by lia.
    rewrite Nat.min_l by nia. unfold sumf, rsum, lag3. cbn [seq map fold_right nth]. rewrite !X, !mult_INR, !minus_INR, !mult_INR by nia. cbn [INR]. field. lra.
  - intros j k Hj Hk. unfold coef. rewrite rows4_nth by (rewrite FI; exact Hk). rewrite rowpos_int by lia.
    rewrite Nat.min_l by nia. unfold sumf, rsum, lag4. cbn [seq map fold_right nth]. rewrite !X, !mult_INR, !plus_INR, !mult_INR, !plus_INR. cbn [INR]. field. lra.
  - intros j Hj. rewrite Nat.min_l by nia. reflexivity.
  - intros t H1 H2. rewrite Nat.min_r by lia. reflexivity.
Qed.
Lemma dotp_scale k w : forall g, dotp (map (Rmult k) w) g = k * dotp w g.
Proof. induction w as [|a w IH]; intros [|b g]; cbn; rewrite ?IH; ring. Qed.
Theorem C76_quadratic_spectra_exact c ill sh I m s cx cy cz p : fine c ill m s cx cy cz -> sh_interval sh = Uniform (Fin (INR I)) ->
  (3 <= I)%nat -> INR I < 18446744073709551616 -> (2 * I + 1 <= m)%nat -> dotp s cy <> 0 -> (length p <= 3)%nat ->
  let n := ((m - 1) / I)%nat in
  let coarse := map (fun j => pol p (INR (I * j))) (seq 0 (n + 1)) in
  let whole := fun cb => 100 / dotp s cy * rsum (map (fun t => nth t s 0 * nth t cb 0 * pol p (INR (Nat.min t (I * n)))) (seq 0 m)) in
  exists wx wy wz, weighting_factors_astme2022 c ill sh = Ret (Fins wx, Fins wy, Fins wz)
    /\ dotp wx coarse = whole cx /\ dotp wy coarse = whole cy /\ dotp wz coarse = whole cz.
Proof.
  intros (Sc & Si & Es & Ex & Ey & Ez & Ls & Lx & Ly & Lz) Ss HI HI2 Hm NZ Hp n coarse whole.
  assert (FI : Z.to_nat (Zfloor (INR I)) = I) by (rewrite INR_IZR_INZ, Zfloor_IZR; apply Nat2Z.id).
  assert (H3 : 3 <= INR I) by (replace 3 with (INR 3) by (cbn; lra); apply le_INR; exact HI).
  assert (T : rsum (table (INR I) m (prod s cy)) = dotp s cy).
  { rewrite table_sum by (rewrite ?FI; assumption). rewrite <- (sumf_prod s cy) by congruence. rewrite Ls. reflexivity. }
  do 3 eexists. split; [eapply factors_fin; try eassumption; rewrite ?FI, ?T; assumption|].
  rewrite !dotp_scale, T. unfold coarse, whole, n. rewrite !table_quadratic by assumption. repeat split; reflexivity.
Qed.

(* seven equal fine samples spread over three coarse points *)
Definition flat7 : vspd xr := Vspd (FinSamps (even 360 1 [1; 1; 1; 1; 1; 1; 1])) (shape 360 366 1).
Lemma flat7_fine : fine (Cmf flat7 flat7 flat7) flat7 7 [1; 1; 1; 1; 1; 1; 1] [1; 1; 1; 1; 1; 1; 1] [1; 1; 1; 1; 1; 1; 1] [1; 1; 1; 1; 1; 1; 1].
Proof. unfold fine, flat7, v_values. cbn [x_bar y_bar z_bar v_samples]. rewrite vals_fin, even_vals. repeat split; reflexivity. Qed.
Example C63_example : exists wx wz, weighting_factors_astme2022 (Cmf flat7 flat7 flat7) flat7 (shape 360 366 3) = Ret (Fins wx, Fins [200 / 9; 500 / 9; 200 / 9], Fins wz)
  /\ rsum [200 / 9; 500 / 9; 200 / 9] = 100 /\ dotp [200 / 9; 500 / 9; 200 / 9] [0; 9; 36] = 100 / 7 * (0 + 1 + 4 + 9 + 16 + 25 + 36).
Proof.
  destruct flat7_fine as (Sc & Si & Es & Ex & Ey & Ez & Ls & Lx & Ly & Lz).
  assert (F : Z.to_nat (Zfloor 3) = 3%nat) by (rewrite (Zfloor_imp 3 3) by (cbn; lra); reflexivity).
  assert (T : table 3 7 (prod [1; 1; 1; 1; 1; 1; 1] [1; 1; 1; 1; 1; 1; 1]) = [14 / 9; 35 / 9; 14 / 9]).
  { unfold table, rows3, rows4. rewrite F. change ((7 - 1) / 3)%nat with 2%nat. change (3 - 1)%nat with 2%nat. cbn [seq map].
    replace (rowpos 3 0) with (1 / 3) by (replace 3 with (INR 3) by (cbn; lra); rewrite rowpos_int by lia; cbn; lra).
    replace (rowpos 3 1) with (2 / 3) by (replace 3 with (INR 3) by (cbn; lra); rewrite rowpos_int by lia; cbn; lra).
    unfold weights, base, c_all, c_first, c_last, c_mid, c_tail, coef, lag3, lag4, addc, prod.
    cbn [seq map flat_map app rev nth Nat.add Nat.sub Nat.mul fold_left list_upd fst snd]. leq; lra. }
  do 2 eexists. split; [rewrite (factors_fin _ _ (shape 360 366 3) 3 7 _ _ _ _ ltac:(lra) ltac:(lra) ltac:(rewrite F; lia) Sc Si eq_refl Es Ex Ey Ez Ls Lx Ly Lz)|].
  - rewrite T. cbv zeta. f_equal. f_equal. f_equal. unfold Fins, rsum. cbn [map fold_right]. leq; lra.
  - rewrite T. unfold rsum. cbn. lra.
  - unfold rsum. cbn. lra.
Qed.
Example C63_trim_example : adjust_weighting_factors_astme308 (Fins [1; 2; 3; 4]) (Fins [1; 2; 3; 4]) (Fins [1; 2; 3; 4]) (shape 360 390 10) (shape 370 380 10)
  = Ret (Fins [3; 7], Fins [3; 7], Fins [3; 7]).
Proof.
  unfold adjust_weighting_factors_astme308, shape. cbn [sh_interval sh_start sh_end]. rewrite !x_sub, !x_div by lra.
  rewrite !as_usize_fin by lra. rewrite (Zfloor_imp 1 ((370 - 360) / 10)), (Zfloor_imp 1 ((390 - 380) / 10)) by (cbn; lra). change (Z.to_nat 1) with 1%nat.
  rewrite adjust_channel_fin by (cbn; lia). cbn [obind]. unfold trimw, sumf, rsum, Fins. cbn [length Nat.sub seq map Nat.eqb nth fold_right]. leq; lra.
Qed.
End W.
