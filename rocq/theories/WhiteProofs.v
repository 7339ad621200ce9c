(* Interpolating a 5 nm table to 1 nm in integers, so that sums over it can be evaluated *)
From Coq Require Import Reals ZArith QArith Qreals Lra Lia List Bool.
From Flocq Require Import Core.
From Verif Require Import Outcome RealOps MathModel ColorModel InterpModel VspdModel UpliftModel XReal SpecLin VspdProofs PropShape SpragueProofs PropSprague AlignProofs PropAlign WeightProofs PropWeights XyzProofs PropTables.
From Verif Require Import DataIllum DataCmf.
Import ListNotations.
Open Scope R_scope.

(* decimals as integers in units of 1/m *)
Definition scaled (m : positive) (q : Q) : Z := if Pos.eqb (Qden q) m then Qnum q else (Qnum q * Zpos m / Zpos (Qden q))%Z.
Definition exactly (m : positive) (l : list Q) : bool := forallb (fun q => Qeq_bool q (scaled m q # m)) l.
Lemma exactly_eq m l : exactly m l = true -> map Q2R l = map (fun q => IZR (scaled m q) / IZR (Zpos m)) l.
Proof.
  intro H. unfold exactly in H. rewrite forallb_forall in H. apply map_ext_in. intros q Hq. specialize (H q Hq). apply Qeq_bool_eq, Qeq_eqR in H. rewrite H. reflexivity.
Qed.

Fixpoint zdot (l m : list Z) : Z := match l, m with a :: l, b :: m => (a * b + zdot l m)%Z | _, _ => 0%Z end.
Lemma zdot_dotp d e l : d <> 0 -> e <> 0 -> forall m, dotp (map (fun z => IZR z / d) l) (map (fun z => IZR z / e) m) = IZR (zdot l m) / (d * e).
Proof.
  intros Hd He. induction l as [|a l IH]; intros [|b m]; cbn [map dotp zdot]; try (field; split; assumption). rewrite IH, plus_IZR, mult_IZR. field. split; assumption.
Qed.
Definition c0 : list Z := [884; -1960; 3033; -2648; 1080; -180]%Z.
Definition c1 : list Z := [508; -540; 488; -367; 144; -24]%Z.
(* ext, times 209 *)
Definition zext (l : list Z) : list Z := ([zdot c0 l; zdot c1 l] ++ map (Z.mul 209) l ++ [zdot c1 (rev l); zdot c0 (rev l)])%Z.
Lemma zext_ext d l : d <> 0 -> ext (map (fun z => IZR z / d) l) = map (fun z => IZR z / (209 * d)) (zext l).
Proof.
  intro Hd. unfold ext, zext. rewrite <- map_rev, !map_app, map_map. cbn [map].
  assert (E : forall c cz m, c = map (fun z => IZR z / 1) cz -> dotp c (map (fun z => IZR z / d) m) / 209 = IZR (zdot cz m) / (209 * d)).
  { intros c cz m ->. rewrite zdot_dotp by (lra || exact Hd). field. exact Hd. }
  assert (D0 : C0 = map (fun z => IZR z / 1) c0) by (unfold C0, c0; cbn [map]; leq; field).
  assert (D1 : C1 = map (fun z => IZR z / 1) c1) by (unfold C1, c1; cbn [map]; leq; field).
  rewrite !(E _ _ _ D0), !(E _ _ _ D1).
  assert (M : map (fun z => IZR z / d) l = map (fun z => IZR (209 * z) / (209 * d)) l) by (apply map_ext; intro z; rewrite mult_IZR; field; exact Hd).
  rewrite M. reflexivity.
Qed.
(* the Sprague polynomial at fifths of a segment, times 625 *)
Definition row (m : nat) : list Z :=
  match m with
  | 0%nat => [0; 0; 625; 0; 0; 0]
  | 1%nat => [8; -61; 584; 109; -16; 1]
  | 2%nat => [9; -71; 454; 274; -46; 5]
  | 3%nat => [5; -46; 274; 454; -71; 9]
  | _ => [1; -16; 109; 584; -61; 8]
  end%Z.
Definition zat (E : list Z) (off k : nat) : Z := zdot (row (k mod 5)) (firstn 6 (skipn (off + k / 5) E)).
Lemma firstn6 {A} (l : list A) i d : (i + 6 <= length l)%nat -> firstn 6 (skipn i l) = [nth i l d; nth (i + 1) l d; nth (i + 2) l d; nth (i + 3) l d; nth (i + 4) l d; nth (i + 5) l d].
Proof.
  revert l. induction i as [|i IH]; intros l H.
  - destruct l as [|a [|b [|c [|e [|f [|g l]]]]]]; cbn in H; try lia. reflexivity.
  - destruct l as [|a l]; [cbn in H; lia|]. cbn [skipn]. rewrite IH by (cbn in H; lia). reflexivity.
Qed.
(* a table from 300 nm in steps of 5, read at 360 + k *)
Lemma sv_zat d l k : d <> 0 -> (97 <= length l)%nat -> (k < 420)%nat ->
  sv 300 5 (map (fun z => IZR z / d) l) (360 + INR k) = IZR (zat (zext l) 12 k) / (625 * (209 * d)).
Proof.
  intros Hd L Hk. unfold sv. rewrite map_length, zext_ext by exact Hd.
  assert (LZ : length (zext l) = (length l + 4)%nat) by (unfold zext; rewrite !app_length, map_length; cbn [length]; lia).
  pose proof (Nat.div_mod k 5 ltac:(lia)) as DM. pose proof (Nat.mod_upper_bound k 5 ltac:(lia)) as MB. set (j := (k / 5)%nat) in *. set (m := (k mod 5)%nat) in *.
  assert (Kr : INR k = 5 * INR j + INR m) by (rewrite DM at 1; rewrite plus_INR, mult_INR; cbn [INR]; ring).
  assert (Mr : INR m <= 4) by (replace 4 with (INR 4) by (rewrite INR_IZR_INZ; reflexivity); apply le_INR; lia). pose proof (pos_INR m).
  assert (P : piece (300 - 2 * 5) 5 2 (length l) (360 + INR k) = (14 + j)%nat).
  { unfold piece. rewrite (Zfloor_imp (Z.of_nat (14 + j))).
    - rewrite Nat2Z.id. lia.
    - rewrite plus_IZR, <- INR_IZR_INZ, plus_INR, Kr. rewrite (INR_IZR_INZ 14). change (IZR (Z.of_nat 14)) with 14. lra. }
  rewrite P. unfold seg. replace (14 + j - 2)%nat with (12 + j)%nat by lia. replace (14 + j - 1)%nat with (12 + j + 1)%nat by lia.
  unfold zat. fold j m. rewrite (firstn6 _ _ 0%Z) by lia.
  assert (N : forall i, (i < length (zext l))%nat -> nth i (map (fun z => IZR z / (209 * d)) (zext l)) 0 = IZR (nth i (zext l) 0%Z) / (209 * d)).
  { intros i Hi. rewrite (nth_indep _ 0 (IZR 0 / (209 * d))) by (rewrite map_length; exact Hi). rewrite (map_nth (fun z => IZR z / (209 * d))). reflexivity. }
  rewrite !N by lia. replace (14 + j)%nat with (12 + j + 2)%nat by lia. replace (12 + j + 2 + 1)%nat with (12 + j + 3)%nat by lia. replace (12 + j + 2 + 2)%nat with (12 + j + 4)%nat by lia. replace (12 + j + 2 + 3)%nat with (12 + j + 5)%nat by lia.
  generalize (nth (12 + j) (zext l) 0%Z) (nth (12 + j + 1) (zext l) 0%Z) (nth (12 + j + 2) (zext l) 0%Z) (nth (12 + j + 3) (zext l) 0%Z) (nth (12 + j + 4) (zext l) 0%Z) (nth (12 + j + 5) (zext l) 0%Z).
  intros z0 z1 z2 z3 z4 z5.
  replace ((360 + INR k - (300 - 2 * 5 + INR (12 + j + 2) * 5)) / 5) with (INR m / 5) by (rewrite Kr, !plus_INR, (INR_IZR_INZ 12); change (IZR (Z.of_nat 12)) with 12; cbn [INR]; field).
  unfold seg6. cbn [P0].
  destruct m as [|[|[|[|[|m]]]]]; [..|lia]; cbn [row zdot INR]; rewrite ?plus_IZR, ?mult_IZR; field; exact Hd.
Qed.

Section W.
Context {K : XConst}.
(* a table from 300 nm in steps of 5, at 360, 361, .., 780, in units of 1 / (625 * 209 * m) *)
Definition zint (l : list Z) : list Z := map (zat (zext l) 12) (seq 0 420) ++ [(625 * (209 * nth 96 l 0))%Z].
Lemma zint_length l : length (zint l) = 421%nat.
Proof. unfold zint. rewrite app_length, map_length, seq_length. reflexivity. Qed.
Lemma nth_scaled d l i : nth i (map (fun z => IZR z / d) l) 0 = IZR (nth i l 0%Z) / d.
Proof.
  destruct (Nat.lt_ge_cases i (length l)) as [H|H].
  - rewrite (nth_indep _ 0 (IZR 0 / d)) by (rewrite map_length; exact H). apply (map_nth (fun z => IZR z / d)).
  - rewrite !nth_overflow by (rewrite ?map_length; exact H). unfold Rdiv. ring.
Qed.
Lemma resampled_zint d l e : d <> 0 -> (97 <= length l)%nat -> 780 <= e ->
  resampled 300 e 5 (map (fun z => IZR z / d) l) 360 780 1 = map (fun z => IZR z / (625 * (209 * d))) (zint l).
Proof.
  intros Hd L He. apply nth_ext with (d := 0) (d' := 0); [rewrite resampled_length, steps1, map_length, zint_length; reflexivity|].
  intros k Hk. rewrite resampled_length, steps1 in Hk. rewrite resampled_nth by (rewrite steps1; lia). rewrite nth_scaled.
  assert (K4 : INR k <= 420) by (replace 420 with (INR 420) by (rewrite INR_IZR_INZ; reflexivity); apply le_INR; lia). pose proof (pos_INR k).
  unfold av. rewrite Rmult_1_r, Rmin_left by lra. rewrite Rmax_right by lra.
  destruct (Nat.eq_dec k 420) as [->|N].
  - replace (360 + INR 420) with (300 + INR 96 * 5) by (rewrite !INR_IZR_INZ; cbn; ring). rewrite sv_knot by (rewrite ?map_length; lia || lra).
    rewrite nth_scaled. unfold zint. rewrite app_nth2 by (rewrite map_length, seq_length; lia). rewrite map_length, seq_length. cbn [Nat.sub nth]. rewrite !mult_IZR. field. exact Hd.
  - rewrite sv_zat by (assumption || lia). unfold zint. rewrite app_nth1 by (rewrite map_length, seq_length; lia). rewrite (nth_indep _ 0%Z (zat (zext l) 12 0)) by (rewrite map_length, seq_length; lia).
    rewrite map_nth, seq_nth by lia. reflexivity.
Qed.
Lemma resampled_head d l : length l = 471%nat -> resampled 360 830 1 (map (fun z => IZR z / d) l) 360 780 1 = map (fun z => IZR z / d) (firstn 421 l).
Proof.
  intro L. apply nth_ext with (d := 0) (d' := 0); [rewrite resampled_length, steps1, map_length, firstn_length, L; reflexivity|].
  intros k Hk. rewrite resampled_length, steps1 in Hk. rewrite resampled_nth by (rewrite steps1; lia).
  assert (K4 : INR k <= 420) by (replace 420 with (INR 420) by (rewrite INR_IZR_INZ; reflexivity); apply le_INR; lia).
  rewrite av_knot by (rewrite ?map_length; lia || lra). rewrite !nth_scaled. f_equal. f_equal.
  rewrite <- (firstn_skipn 421 l) at 1. rewrite app_nth1 by (rewrite firstn_length; lia). reflexivity.
Qed.
End W.
Definition zevery5 (l : list Z) : list Z := map (fun k => nth (5 * k) l 0%Z) (seq 0 85).
Lemma every5_scaled d l : every5 (map (fun z => IZR z / d) l) = map (fun z => IZR z / d) (zevery5 l).
Proof. unfold every5, zevery5. rewrite map_map. apply map_ext. intro k. apply nth_scaled. Qed.

(* positive sums whose proportions x, y are within tol of a, b *)
Definition zclose (x y z : Z) (a b tol : Q) : bool :=
  let t := (x + y + z)%Z in
  ((0 <? y) && (0 <? t))%Z && Qle_bool (a - tol) (x # Z.to_pos t) && Qle_bool (x # Z.to_pos t) (a + tol) && Qle_bool (b - tol) (y # Z.to_pos t) && Qle_bool (y # Z.to_pos t) (b + tol).
Lemma zclose_spec x y z a b tol k : zclose x y z a b tol = true -> 0 < k ->
  let X := IZR x / k in let Y := IZR y / k in let Z := IZR z / k in
  0 < Y /\ 0 < X + Y + Z /\ Rabs (X / (X + Y + Z) - Q2R a) <= Q2R tol /\ Rabs (Y / (X + Y + Z) - Q2R b) <= Q2R tol.
Proof.
  intros H Hk X Y Z. unfold zclose in H. rewrite !andb_true_iff in H. destruct H as (((((Py & Pt) & A) & B) & C) & D).
  apply Z.ltb_lt, IZR_lt in Py, Pt. assert (T : X + Y + Z = IZR (x + y + z) / k) by (unfold X, Y, Z; rewrite !plus_IZR; field; lra).
  assert (Tp : 0 < IZR (x + y + z)) by exact Pt.
  assert (F : forall u, Q2R (u # Z.to_pos (x + y + z)) = IZR u / k / (X + Y + Z)).
  { intro u. rewrite T. unfold Q2R. cbn [Qnum Qden]. rewrite Z2Pos.id by (apply lt_IZR; exact Pt). field. split; lra. }
  apply Qle_bool_iff, Qle_Rle in A, B, C, D. unfold Qminus in A, C. rewrite Q2R_plus, Q2R_opp in A, C. rewrite Q2R_plus in B, D. rewrite F in A, B, C, D. fold X Y in A, B, C, D.
  split; [apply Rdiv_lt_0_compat; assumption|]. split; [rewrite T; apply Rdiv_lt_0_compat; assumption|]. split; apply Rabs_le; split; lra.
Qed.
