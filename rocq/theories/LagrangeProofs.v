(* Lagrange coefficients of ASTM E2022 (vspd.rs 686-737) in exact arithmetic *)
From Coq Require Import Reals ZArith QArith Qreals Lra Lia List Bool.
From Flocq Require Import Core.
From Verif Require Import Outcome RealOps MathModel ColorModel InterpModel VspdModel XReal SpecLin VspdProofs PropShape.
Import ListNotations.
Open Scope R_scope.

Definition lag3 (r : R) : list R := [(r - 1) * (r - 2) / 2; - (r * (r - 2)); r * (r - 1) / 2].
Definition lag4 (r : R) : list R :=
  [- ((r - 1) * (r - 2) * (r - 3)) / 6; r * (r - 2) * (r - 3) / 2; - (r * (r - 1) * (r - 3)) / 2; r * (r - 1) * (r - 2) / 6].
(* fractional position of row k for interval i *)
Definition rowpos (i : R) (k : nat) : R := 1 / i + INR k * ((1 - 1 / i - 1 / i) / INR (Z.to_nat (Zfloor i) - 1 - 1)).
Definition rows3 (i : R) : list (list R) := map (fun k => lag3 (rowpos i k)) (seq 0 (Z.to_nat (Zfloor i) - 1)).
Definition rows4 (i : R) : list (list R) := map (fun k => lag4 (rowpos i k + 1)) (seq 0 (Z.to_nat (Zfloor i) - 1)).

Section L.
Context {K : XConst}.

Lemma lagrange3_fin r : lagrange_coefficients (Fin r) 3 = Fins (lag3 r).
Proof.
  unfold lagrange_coefficients. cbn [seq map fold_left Nat.eqb]. rewrite !of_usize_fin. cbn [INR]. xs. rewrite !x_div by lra. xs.
  unfold lag3, Fins. cbn [map]. leq; (clear; q2r; lra) || (clear; q2r; field).
Qed.
Lemma lagrange4_fin r : lagrange_coefficients (Fin r) 4 = Fins (lag4 r).
Proof.
  unfold lagrange_coefficients. cbn [seq map fold_left Nat.eqb]. rewrite !of_usize_fin. cbn [INR]. xs. rewrite !x_div by lra. xs.
  unfold lag4, Fins. cbn [map]. leq; clear; q2r; field.
Qed.
Lemma as_usize_fin x : 0 <= x -> x < 18446744073709551616 -> as_usize (Fin x) = Z.to_nat (Zfloor x).
Proof.
  intros H0 H1. unfold as_usize. cbn. rewrite Ztrunc_floor by exact H0. f_equal.
  assert (0 <= Zfloor x)%Z by (apply Zfloor_lub; exact H0).
  assert (Zfloor x < 18446744073709551616)%Z by (apply lt_IZR; apply Rle_lt_trans with x; [apply Zfloor_lb|exact H1]).
  unfold usize_max. lia.
Qed.
Lemma floor_nat_ge i n : INR n <= i -> (n <= Z.to_nat (Zfloor i))%nat.
Proof.
  intro H. rewrite INR_IZR_INZ in H. assert (Z.of_nat n <= Zfloor i)%Z by (apply Zfloor_lub; exact H). lia.
Qed.
Lemma rows_fin i : 3 <= i -> i < 18446744073709551616 ->
  lagrange_coefficients_astm_e2022 (Fin i) 3 = Ret (map Fins (rows3 i)) /\ lagrange_coefficients_astm_e2022 (Fin i) 4 = Ret (map Fins (rows4 i)).
Proof.
  intros H3 Hm. pose proof (floor_nat_ge i 3 ltac:(cbn; lra)) as N.
  unfold lagrange_coefficients_astm_e2022. rewrite as_usize_fin by lra. rewrite usize_sub_ok by lia. cbn [obind Nat.eqb].
  rewrite !x_litd, !x_div, !x_sub by lra. set (n := (Z.to_nat (Zfloor i) - 1)%nat).
  replace (Q2R 1.0) with 1 by (clear; q2r; lra). replace (Q2R 0.0) with 0 by (clear; q2r; lra).
  assert (E : linspace (Fin (1 / i)) (Fin (1 - 1 / i)) n = Ret (map (fun k => Fin (rowpos i k)) (seq 0 n))).
  { assert (P : INR (n - 1) <> 0) by (apply not_0_INR; lia). unfold linspace. rewrite usize_sub_ok by lia. cbn [obind].
    rewrite of_usize_fin, x_sub, x_div by exact P. f_equal. apply map_ext. intro k. rewrite of_usize_fin. xs. f_equal. unfold rowpos. fold n. ring. }
  rewrite E. cbn [obind]. unfold rows3, rows4. fold n. rewrite !map_map. split; f_equal; apply map_ext; intro k; rewrite x_add.
  - rewrite lagrange3_fin. do 2 f_equal. ring.
  - rewrite lagrange4_fin. reflexivity.
Qed.
End L.

Lemma lag3_sum r : rsum (lag3 r) = 1. Proof. unfold rsum, lag3. cbn. field. Qed.
Lemma lag4_sum r : rsum (lag4 r) = 1. Proof. unfold rsum, lag4. cbn. field. Qed.
(* for a whole number of nanometres row k stands for the point k + 1 of the interval *)
Lemma rowpos_int (n k : nat) : (3 <= n)%nat -> rowpos (INR n) k = INR (k + 1) / INR n.
Proof.
  intro H. unfold rowpos. replace (Zfloor (INR n)) with (Z.of_nat n) by (rewrite INR_IZR_INZ, Zfloor_IZR; reflexivity). rewrite Nat2Z.id.
  replace (n - 1 - 1)%nat with (n - 2)%nat by lia. rewrite minus_INR, plus_INR by lia. cbn [INR].
  assert (3 <= INR n) by (replace 3 with (INR 3) by (cbn; lra); apply le_INR; exact H). field. lra.
Qed.

Section C61.
Context {K : XConst}.
(* value at r of the polynomial with the given coefficients, lowest first *)
Fixpoint pol (c : list R) (r : R) : R := match c with [] => 0 | a :: c => a + r * pol c r end.

Theorem C61_lagrange_rows i : 3 <= i -> i < 18446744073709551616 ->
  forall n, n = 3%nat \/ n = 4%nat ->
  exists rows, lagrange_coefficients_astm_e2022 (Fin i) n = Ret (map Fins rows)
    /\ length rows = (Z.to_nat (Zfloor i) - 1)%nat
    /\ forall k row, nth_error rows k = Some row ->
         let r := 1 / i + INR k * ((1 - 2 / i) / INR (Z.to_nat (Zfloor i) - 2)) + (if Nat.eqb n 4 then 1 else 0) in
         length row = n /\ rsum row = 1
         /\ forall c, (length c <= n)%nat -> dotp row (map (fun j => pol c (INR j)) (seq 0 n)) = pol c r.
Proof.
  intros H3 Hm n Hn. destruct (rows_fin i H3 Hm) as [E3 E4]. pose proof (floor_nat_ge i 3 ltac:(cbn; lra)) as N.
  assert (RP : forall k, rowpos i k = 1 / i + INR k * ((1 - 2 / i) / INR (Z.to_nat (Zfloor i) - 2))).
  { intro k. unfold rowpos. replace (Z.to_nat (Zfloor i) - 1 - 1)%nat with (Z.to_nat (Zfloor i) - 2)%nat by lia.
    replace (1 - 1 / i - 1 / i) with (1 - 2 / i) by (field; lra). reflexivity. }
  destruct Hn as [-> | ->].
  - exists (rows3 i). split; [exact E3|]. split; [unfold rows3; rewrite map_length, seq_length; reflexivity|].
    intros k row Hk r. unfold rows3 in Hk. rewrite nth_error_map in Hk. destruct (nth_error (seq 0 _) k) as [k'|] eqn:S; [|discriminate].
    assert (k' = k) as ->. { pose proof (nth_error_nth _ _ 0%nat S). apply nth_error_In in S as I. assert (k < Z.to_nat (Zfloor i) - 1)%nat by (apply nth_error_Some_lt in S || (rewrite <- (seq_length (Z.to_nat (Zfloor i) - 1) 0); apply nth_error_Some; congruence)). rewrite seq_nth in H by assumption. lia. }
    cbn in Hk. injection Hk as <-. assert (r = rowpos i k) as -> by (unfold r; rewrite RP; cbn; ring).
    generalize (rowpos i k). intro x. split; [reflexivity|]. split; [apply lag3_sum|].
    intros c Hc. destruct c as [|a [|b [|c [|d c']]]]; cbn in Hc; try lia; cbn; field.
  - exists (rows4 i). split; [exact E4|]. split; [unfold rows4; rewrite map_length, seq_length; reflexivity|].
    intros k row Hk r. unfold rows4 in Hk. rewrite nth_error_map in Hk. destruct (nth_error (seq 0 _) k) as [k'|] eqn:S; [|discriminate].
    assert (k' = k) as ->. { pose proof (nth_error_nth _ _ 0%nat S). assert (k < Z.to_nat (Zfloor i) - 1)%nat by (rewrite <- (seq_length (Z.to_nat (Zfloor i) - 1) 0); apply nth_error_Some; congruence). rewrite seq_nth in H by assumption. lia. }
    cbn in Hk. injection Hk as <-. assert (r = rowpos i k + 1) as -> by (unfold r; rewrite RP; cbn; ring).
    generalize (rowpos i k + 1). intro x. split; [reflexivity|]. split; [apply lag4_sum|].
    intros c Hc. destruct c as [|a [|b [|c [|d [|e c']]]]]; cbn in Hc; try lia; cbn; field.
Qed.
(* with an interval of 2 nm the single row is divided by zero; with 1 nm the row count underflows *)
Theorem C61_small_intervals : (exists row, lagrange_coefficients_astm_e2022 (Fin 2) 3 = Ret [row] /\ In Bad row)
  /\ lagrange_coefficients_astm_e2022 (Fin 1) 3 = Panic.
Proof.
  unfold lagrange_coefficients_astm_e2022. rewrite !as_usize_fin by lra.
  rewrite (Zfloor_imp 2 2) by (cbn; lra). rewrite (Zfloor_imp 1 1) by (cbn; lra).
  change (Z.to_nat 2) with 2%nat. change (Z.to_nat 1) with 1%nat. cbn [usize_sub Nat.leb Nat.sub obind Nat.eqb]. split.
  - xs. rewrite !x_div by lra. rewrite x_sub. rewrite (proj1 (C62_linspace_small _ _)). cbn [obind map].
    eexists. split; [reflexivity|]. left. reflexivity.
  - rewrite !x_litd, !x_div by lra. rewrite x_sub. rewrite (proj2 (C62_linspace_small _ _)). reflexivity.
Qed.
Example C61_example : exists rows, lagrange_coefficients_astm_e2022 (Fin 10) 3 = Ret (map Fins rows) /\ length rows = 9%nat
  /\ nth_error rows 4 = Some [0.375; 0.75; -0.125].
Proof.
  destruct (rows_fin 10 ltac:(lra) ltac:(lra)) as [E _]. exists (rows3 10). split; [exact E|].
  unfold rows3. replace (Zfloor 10) with 10%Z by (symmetry; apply (Zfloor_imp 10 10); cbn; lra). change (Z.to_nat 10 - 1)%nat with 9%nat.
  split; [reflexivity|]. cbn [seq map nth_error]. f_equal. replace 10 with (INR 10) by (cbn; lra). rewrite rowpos_int by lia. unfold lag3. cbn [INR Nat.add]. leq; lra.
Qed.
End C61.
