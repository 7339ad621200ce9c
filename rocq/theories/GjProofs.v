(* Gauss-Jordan inversion on exact reals *)
From Coq Require Import Reals ZArith Lra Lia List Bool.
From Verif Require Import Outcome RealOps MathModel XReal SpecLin MatProofs.
Import ListNotations.
Open Scope R_scope.

(* entry (i,j), i, j < 3 *)
Definition ent (p : RM) (i j : nat) : R := mget p i j.

(* elementary row operations on real matrices *)
Definition Rsubmul (v : R) (i j : nat) (t : RM) : RM :=
  fold_left (fun t k => mset t j k (mget t j k - v * mget t i k)) (seq 0 3) t.
Definition Rscale (v : R) (i : nat) (t : RM) : RM :=
  fold_left (fun t k => mset t i k (mget t i k / v)) (seq 0 3) t.
Definition Rswap (i p : nat) (t : RM) : RM :=
  if Nat.eqb p i then t else
  fold_left (fun t k => let x := mget t i k in mset (mset t i k (mget t p k)) p k x) (seq 0 3) t.

Definition FinM2 (ts : RM * RM) : mat33 xr * mat33 xr := (FinM (fst ts), FinM (snd ts)).

Ltac three i := destruct i as [|[|[|i]]]; [| | |lia].
Ltac gev := cbv beta iota zeta delta [Rsubmul Rscale Rswap ent gj_submul gj_scale gj_swap FinM2
  fold_left seq mset mget mat_nth Nat.eqb Nat.mul Nat.add
  Nat.sub mx0 mx1 mx2 mx3 mx4 mx5 mx6 mx7 mx8 FinM mmul mone mat_identity mdet
  radd rsub rmul rneg rdiv rlt rle req xcmp rzero rone rabs xr_ops xlift2 xlift1 fst snd].

Section Gj.
Context {K : XConst}.

Lemma submul_fin v i j ts : (i < 3)%nat -> (j < 3)%nat ->
  gj_submul (Fin v) i j (FinM2 ts) = FinM2 (Rsubmul v i j (fst ts), Rsubmul v i j (snd ts)).
Proof.
  intros Hi Hj. destruct ts as [[a b c d e f g h k] [a' b' c' d' e' f' g' h' k']].
  three i; three j; gev; reflexivity.
Qed.
Lemma swap_fin i p ts : (i < 3)%nat -> (p < 3)%nat ->
  gj_swap i p (FinM2 ts) = FinM2 (Rswap i p (fst ts), Rswap i p (snd ts)).
Proof.
  intros Hi Hj. destruct ts as [[a b c d e f g h k] [a' b' c' d' e' f' g' h' k']].
  three i; three p; gev; reflexivity.
Qed.
Lemma scale_fin v i ts : (i < 3)%nat -> v <> 0 ->
  gj_scale (Fin v) i (FinM2 ts) = FinM2 (Rscale v i (fst ts), Rscale v i (snd ts)).
Proof.
  intros Hi Hv. destruct ts as [[a b c d e f g h k] [a' b' c' d' e' f' g' h' k']].
  three i; gev; rewrite !xdiv_fin by exact Hv; reflexivity.
Qed.

Lemma submul_mmul v i j s A : (i < 3)%nat -> (j < 3)%nat -> i <> j ->
  mmul (Rsubmul v i j s) A = Rsubmul v i j (mmul s A).
Proof.
  intros Hi Hj N. destruct s, A. three i; three j; try (elim N; reflexivity); gev; f_equal; ring.
Qed.
Lemma scale_mmul v i s A : (i < 3)%nat -> mmul (Rscale v i s) A = Rscale v i (mmul s A).
Proof.
  intros Hi. destruct s, A. three i; gev; f_equal; unfold Rdiv; ring.
Qed.
Lemma swap_mmul i p s A : (i < 3)%nat -> (p < 3)%nat -> mmul (Rswap i p s) A = Rswap i p (mmul s A).
Proof.
  intros Hi Hp. destruct s, A. three i; three p; gev; f_equal; ring.
Qed.

(* pivot search on the original matrix *)
Definition is_pivot0 (A : RM) (p : nat) : Prop :=
  (p = 0%nat /\ Rabs (ent A 1 0) <= Rabs (ent A 0 0) /\ Rabs (ent A 2 0) <= Rabs (ent A 0 0))
  \/ (p = 1%nat /\ Rabs (ent A 0 0) < Rabs (ent A 1 0) /\ Rabs (ent A 2 0) <= Rabs (ent A 1 0))
  \/ (p = 2%nat /\ Rabs (ent A 0 0) < Rabs (ent A 2 0) /\ Rabs (ent A 1 0) < Rabs (ent A 2 0)).
Definition is_pivot1 (A : RM) (p : nat) : Prop :=
  (p = 1%nat /\ Rabs (ent A 2 1) <= Rabs (ent A 1 1))
  \/ (p = 2%nat /\ Rabs (ent A 1 1) < Rabs (ent A 2 1)).

Lemma pivot0_spec A : exists p, is_pivot0 A p /\ gj_pivot (FinM A) 0 = (p, Fin (Rabs (ent A p 0))).
Proof.
  destruct A as [a b c d e f g h k].
  unfold gj_pivot, is_pivot0. cbn [seq Nat.add Nat.sub fold_left]. gev.
  destruct (Rltb_spec (Rabs a) (Rabs d)).
  - destruct (Rltb_spec (Rabs d) (Rabs g)).
    + exists 2%nat. split; [right; right; repeat split; lra|reflexivity].
    + exists 1%nat. split; [right; left; repeat split; lra|reflexivity].
  - destruct (Rltb_spec (Rabs a) (Rabs g)).
    + exists 2%nat. split; [right; right; repeat split; lra|reflexivity].
    + exists 0%nat. split; [left; repeat split; lra|reflexivity].
Qed.
Lemma pivot1_spec A : exists p, is_pivot1 A p /\ gj_pivot (FinM A) 1 = (p, Fin (Rabs (ent A p 1))).
Proof.
  destruct A as [a b c d e f g h k].
  unfold gj_pivot, is_pivot1. cbn [seq Nat.add Nat.sub fold_left]. gev.
  destruct (Rltb_spec (Rabs e) (Rabs h)).
  - exists 2%nat. split; [right; split; [reflexivity|lra] | reflexivity].
  - exists 1%nat. split; [left; split; [reflexivity|lra] | reflexivity].
Qed.
Lemma is_pivot0_unique A p q : is_pivot0 A p -> is_pivot0 A q -> p = q.
Proof. unfold is_pivot0. intros H1 H2. decompose [or and] H1; decompose [or and] H2; subst; try reflexivity; lra. Qed.
Lemma is_pivot1_unique A p q : is_pivot1 A p -> is_pivot1 A q -> p = q.
Proof. unfold is_pivot1. intros H1 H2. decompose [or and] H1; decompose [or and] H2; subst; try reflexivity; lra. Qed.

(* elimination below row i *)
Definition Relim0 (t : RM) : RM * (R * R) :=
  let v1 := ent t 1 0 / ent t 0 0 in
  let t1 := Rsubmul v1 0 1 t in
  let v2 := ent t1 2 0 / ent t1 0 0 in
  (Rsubmul v2 0 2 t1, (v1, v2)).

Lemma elim0_fin t s A : mmul s A = t -> ent t 0 0 <> 0 ->
  exists t' s', gj_eliminate 0 (FinM2 (t, s)) = FinM2 (t', s') /\ mmul s' A = t'
  /\ (forall k, (k < 3)%nat -> ent t' 0 k = ent t 0 k)
  /\ (forall j k, (0 < j < 3)%nat -> (k < 3)%nat ->
        ent t' j k = ent t j k - ent t j 0 / ent t 0 0 * ent t 0 k).
Proof.
  intros H N. unfold gj_eliminate. cbn [seq Nat.add Nat.sub fold_left].
  set (v1 := ent t 1 0 / ent t 0 0).
  assert (E1 : rdiv (mget (fst (FinM2 (t, s))) 1 0) (mget (fst (FinM2 (t, s))) 0 0) = Fin v1).
  { destruct t as [a b c d e f g h k]. unfold v1, FinM2. cbn [fst FinM ent].
    unfold ent, mget in *. cbn in N. cbn [Nat.mul Nat.add mat_nth mx0 mx3].
    apply x_div; exact N. }
  rewrite E1, submul_fin by lia. cbn [fst snd].
  set (t1 := Rsubmul v1 0 1 t). set (s1 := Rsubmul v1 0 1 s).
  assert (H1 : mmul s1 A = t1) by (unfold s1, t1; rewrite submul_mmul, H by lia; reflexivity).
  set (v2 := ent t 2 0 / ent t 0 0).
  assert (E2 : rdiv (mget (fst (FinM2 (t1, s1))) 2 0) (mget (fst (FinM2 (t1, s1))) 0 0) = Fin v2).
  { unfold v2, t1. clear -N. destruct t as [a b c d e f g h k]. revert N. gev. intro N.
    apply x_div; exact N. }
  rewrite E2, submul_fin by lia. cbn [fst snd].
  exists (Rsubmul v2 0 2 t1), (Rsubmul v2 0 2 s1).
  split; [reflexivity|]. split; [rewrite submul_mmul, H1 by lia; reflexivity|].
  unfold t1. fold v1 v2. split.
  - intros k Hk. destruct t. three k; gev; reflexivity.
  - intros j k Hj Hk. unfold v1, v2. destruct t.
    destruct j as [|[|[|j]]]; try lia; three k; gev; reflexivity.
Qed.

Lemma elim1_fin t s A : mmul s A = t -> ent t 1 1 <> 0 ->
  exists t' s', gj_eliminate 1 (FinM2 (t, s)) = FinM2 (t', s') /\ mmul s' A = t'
  /\ (forall j k, (j < 2)%nat -> (k < 3)%nat -> ent t' j k = ent t j k)
  /\ (forall k, (k < 3)%nat -> ent t' 2 k = ent t 2 k - ent t 2 1 / ent t 1 1 * ent t 1 k).
Proof.
  intros H N. unfold gj_eliminate. cbn [seq Nat.add Nat.sub fold_left].
  set (v := ent t 2 1 / ent t 1 1).
  assert (E1 : rdiv (mget (fst (FinM2 (t, s))) 2 1) (mget (fst (FinM2 (t, s))) 1 1) = Fin v).
  { unfold v. clear -N. destruct t as [a b c d e f g h k]. revert N. gev. intro N.
    apply x_div; exact N. }
  rewrite E1, submul_fin by lia. cbn [fst snd].
  exists (Rsubmul v 1 2 t), (Rsubmul v 1 2 s).
  split; [reflexivity|]. split; [rewrite submul_mmul, H by lia; reflexivity|].
  split.
  - intros j k Hj Hk. destruct t. destruct j as [|[|j]]; try lia; three k; gev; reflexivity.
  - intros k Hk. unfold v. destruct t. three k; gev; reflexivity.
Qed.

(* with a zero on the diagonal the third row of both matrices becomes undefined *)
Definition row2_bad (m : mat33 xr) : Prop := mx6 m = Bad /\ mx7 m = Bad /\ mx8 m = Bad.

Lemma elim1_bad t s : ent t 1 1 = 0 ->
  exists t' s', gj_eliminate 1 (FinM2 (t, s)) = (t', s') /\ row2_bad t' /\ row2_bad s'.
Proof.
  intro N. unfold gj_eliminate. cbn [seq Nat.add Nat.sub fold_left].
  destruct t as [a b c d e f g h k], s as [a' b' c' d' e' f' g' h' k'].
  assert (E : rdiv (mget (fst (FinM2 (Mat33 a b c d e f g h k, Mat33 a' b' c' d' e' f' g' h' k'))) 2 1)
     (mget (fst (FinM2 (Mat33 a b c d e f g h k, Mat33 a' b' c' d' e' f' g' h' k'))) 1 1) = Bad).
  { unfold ent, mget in N. cbn in N. subst e. apply x_div0. }
  rewrite E. gev. eexists _, _. split; [reflexivity|]. split; repeat split; reflexivity.
Qed.

(* once there, backward substitution returns a matrix that is not finite *)
Lemma backward_bad t s : row2_bad t -> row2_bad s ->
  match opt_bind (gj_backward 2 (t, s)) (fun ts =>
        opt_bind (gj_backward 1 ts) (fun ts =>
        opt_bind (gj_backward 0 ts) (fun ts => Some (snd ts)))) with
  | Some n => row2_bad n
  | None => True
  end.
Proof.
  intros [T6 [T7 T8]] [S6 [S7 S8]].
  destruct t as [a b c d e f g h k], s as [a' b' c' d' e' f' g' h' k'].
  cbn in T6, T7, T8, S6, S7, S8. subst g h k g' h' k'.
  unfold gj_backward at 1. cbn [fst]. unfold mget. cbn [Nat.mul Nat.add mat_nth mx8].
  change (req Bad (rzero : xr)) with false. cbn iota.
  cbn [opt_bind].
  match goal with |- context [gj_backward 1 ?x] => destruct x as [t1 s1] eqn:E1 end.
  assert (B1 : row2_bad t1 /\ row2_bad s1).
  { revert E1. cbn [seq fold_left]. gev. intro E1. injection E1 as <- <-.
    split; repeat split; reflexivity. }
  clear E1. destruct B1 as [Bt Bs].
  unfold gj_backward at 1. destruct (req _ _); [exact I|]. cbn [opt_bind].
  match goal with |- context [gj_backward 0 ?x] => destruct x as [t2 s2] eqn:E2 end.
  assert (B2 : row2_bad t2 /\ row2_bad s2).
  { revert E2. cbn [seq fold_left]. destruct t1, s1. destruct Bt as [? [? ?]], Bs as [? [? ?]].
    cbn in *. subst. gev. intro E2. injection E2 as <- <-. split; repeat split; reflexivity. }
  clear E2. destruct B2 as [Bt2 Bs2].
  unfold gj_backward at 1. destruct (req _ _); [exact I|]. cbn [opt_bind seq fold_left].
  destruct t2, s2. destruct Bt2 as [? [? ?]], Bs2 as [? [? ?]]. cbn in *. subst.
  gev. repeat split; reflexivity.
Qed.

(* backward substitution on an upper triangular matrix *)
Lemma fst_fin t s i j : (i < 3)%nat -> (j < 3)%nat ->
  mget (fst (FinM2 (t, s))) i j = Fin (ent t i j).
Proof. intros Hi Hj. destruct t. three i; three j; reflexivity. Qed.

Lemma backward_fin t s A : mmul s A = t ->
  ent t 1 0 = 0 -> ent t 2 0 = 0 -> ent t 2 1 = 0 ->
  ent t 0 0 <> 0 -> ent t 1 1 <> 0 ->
  let r := opt_bind (gj_backward 2 (FinM2 (t, s))) (fun ts =>
        opt_bind (gj_backward 1 ts) (fun ts =>
        opt_bind (gj_backward 0 ts) (fun ts => Some (snd ts)))) in
  (ent t 2 2 = 0 /\ r = None) \/
  (ent t 2 2 <> 0 /\ exists N, r = Some (FinM N) /\ mmul N A = mone).
Proof.
  intros H Z10 Z20 Z21 N0 N1. cbv zeta.
  destruct t as [a b c d e f g h k]. unfold ent, mget in Z10, Z20, Z21, N0, N1.
  cbn in Z10, Z20, Z21, N0, N1. subst d g h.
  change (ent (Mat33 a b c 0 e f 0 0 k) 2 2) with k.
  destruct (Req_dec k 0) as [Ek|Nk]; [left|right]; (split; [exact Ek || exact Nk|]).
  { unfold gj_backward at 1. rewrite fst_fin by lia. change (ent (Mat33 a b c 0 e f 0 0 k) 2 2) with k.
    rewrite x_zero, x_eq, (Reqb_true _ _ Ek). reflexivity. }
  unfold gj_backward at 1. rewrite fst_fin by lia. change (ent (Mat33 a b c 0 e f 0 0 k) 2 2) with k.
  rewrite x_zero, x_eq, (Reqb_false _ _ Nk). rewrite scale_fin by (lia || exact Nk). cbn [fst snd].
  set (t1 := Rscale k 2 (Mat33 a b c 0 e f 0 0 k)). set (s1 := Rscale k 2 s).
  assert (T1 : t1 = Mat33 a b c 0 e f 0 0 1).
  { unfold t1. gev. f_equal; field; exact Nk. }
  assert (H1 : mmul s1 A = t1) by (unfold s1, t1; rewrite scale_mmul, H by lia; reflexivity).
  clearbody t1 s1. subst t1. cbn [seq fold_left].
  rewrite fst_fin, submul_fin by lia. cbn [fst snd].
  set (t2 := Rsubmul _ 2 0 (Mat33 _ _ _ _ _ _ _ _ _)). set (s2 := Rsubmul _ 2 0 s1).
  assert (T2 : t2 = Mat33 a b 0 0 e f 0 0 1).
  { unfold t2. gev. f_equal; ring. }
  assert (H2 : mmul s2 A = t2) by (unfold s2, t2; rewrite submul_mmul, H1 by lia; reflexivity).
  clearbody t2 s2. subst t2.
  rewrite fst_fin, submul_fin by lia. cbn [fst snd].
  set (t3 := Rsubmul _ 2 1 (Mat33 _ _ _ _ _ _ _ _ _)). set (s3 := Rsubmul _ 2 1 s2).
  assert (T3 : t3 = Mat33 a b 0 0 e 0 0 0 1).
  { unfold t3. gev. f_equal; ring. }
  assert (H3 : mmul s3 A = t3) by (unfold s3, t3; rewrite submul_mmul, H2 by lia; reflexivity).
  clearbody t3 s3. subst t3. cbn [opt_bind].
  (* i = 1 *)
  unfold gj_backward at 1. rewrite fst_fin by lia. change (ent (Mat33 a b 0 0 e 0 0 0 1) 1 1) with e.
  rewrite x_zero, x_eq, (Reqb_false _ _ N1). rewrite scale_fin by (lia || exact N1). cbn [fst snd].
  set (t4 := Rscale e 1 (Mat33 _ _ _ _ _ _ _ _ _)). set (s4 := Rscale e 1 s3).
  assert (T4 : t4 = Mat33 a b 0 0 1 0 0 0 1).
  { unfold t4. gev. f_equal; field; exact N1. }
  assert (H4 : mmul s4 A = t4) by (unfold s4, t4; rewrite scale_mmul, H3 by lia; reflexivity).
  clearbody t4 s4. subst t4. cbn [seq fold_left].
  rewrite fst_fin, submul_fin by lia. cbn [fst snd].
  set (t5 := Rsubmul _ 1 0 (Mat33 _ _ _ _ _ _ _ _ _)). set (s5 := Rsubmul _ 1 0 s4).
  assert (T5 : t5 = Mat33 a 0 0 0 1 0 0 0 1).
  { unfold t5. gev. f_equal; ring. }
  assert (H5 : mmul s5 A = t5) by (unfold s5, t5; rewrite submul_mmul, H4 by lia; reflexivity).
  clearbody t5 s5. subst t5. cbn [opt_bind].
  (* i = 0 *)
  unfold gj_backward at 1. rewrite fst_fin by lia. change (ent (Mat33 a 0 0 0 1 0 0 0 1) 0 0) with a.
  rewrite x_zero, x_eq, (Reqb_false _ _ N0).
  rewrite scale_fin by (lia || exact N0). cbn [seq fold_left opt_bind fst snd FinM2].
  exists (Rscale a 0 s5). split; [reflexivity|].
  rewrite scale_mmul, H5 by lia. gev. f_equal; field; exact N0.
Qed.

(* What the algorithm needs of the matrix.  [p0], [p1] are the pivot rows it picks by looking
   at the ORIGINAL columns; C is the matrix with rows 0,p0 and then 1,p1 exchanged. *)
Definition gj_ok (A : RM) : Prop :=
  exists p0 p1, is_pivot0 A p0 /\ is_pivot1 A p1 /\
    let C := Rswap 1 p1 (Rswap 0 p0 A) in
    ent A p1 1 <> 0 /\
    ent C 0 0 <> 0 /\
    ent C 0 0 * ent C 1 1 - ent C 1 0 * ent C 0 1 <> 0 /\
    mdet A <> 0.

Lemma Rabs_zero_iff x : Rabs x = 0 <-> x = 0.
Proof. split; intro H; [|subst; apply Rabs_R0]. destruct (Req_dec x 0); [assumption|]. pose proof (Rabs_no_R0 x H0). contradiction. Qed.

Lemma gj_cases A :
  (gj_ok A /\ exists N, mat_gj_inverse (FinM A) = Some (FinM N) /\ mmul N A = mone)
  \/ (~ gj_ok A /\
      match mat_gj_inverse (FinM A) with
      | None => True
      | Some n => ~ exists N, n = FinM N
      end).
Proof.
  destruct (pivot0_spec A) as [p0 [P0 E0]]. destruct (pivot1_spec A) as [p1 [P1 E1]].
  assert (L0 : (p0 < 3)%nat) by (destruct P0 as [[-> _]|[[-> _]|[-> _]]]; lia).
  assert (L1 : (0 < p1 < 3)%nat) by (destruct P1 as [[-> _]|[-> _]]; lia).
  unfold mat_gj_inverse, gj_forward. rewrite E0.
  change (FinM A, mat_identity) with (FinM2 (A, mone)).
  rewrite x_zero, x_eq.
  destruct (Req_dec (ent A p0 0) 0) as [Z0|N0].
  { rewrite Reqb_true by (apply Rabs_zero_iff; exact Z0). cbn [opt_bind]. right. split; [|exact I].
    intros (q0 & q1 & Q0 & Q1 & _ & H & _).
    rewrite (is_pivot0_unique _ _ _ Q0 P0), (is_pivot1_unique _ _ _ Q1 P1) in H. apply H.
    rewrite <- Z0. destruct A. destruct p0 as [|[|[|p0]]]; [| | |lia];
      destruct p1 as [|[|[|p1]]]; try lia; reflexivity. }
  rewrite Reqb_false by (rewrite Rabs_zero_iff; exact N0). cbn [opt_bind].
  rewrite swap_fin by lia. cbn [fst snd].
  set (B := Rswap 0 p0 A). set (S0 := Rswap 0 p0 mone).
  assert (HB : mmul S0 A = B) by (unfold S0, B; rewrite swap_mmul, mmul_1_l by lia; reflexivity).
  assert (NB : ent B 0 0 <> 0).
  { unfold B. destruct A. destruct p0 as [|[|[|p0]]]; [| | |lia]; exact N0. }
  destruct (elim0_fin _ _ _ HB NB) as (t1 & s1 & EE & H1 & R0 & R12). rewrite EE. cbn [opt_bind].
  rewrite E1, x_eq.
  destruct (Req_dec (ent A p1 1) 0) as [Z1|N1].
  { rewrite Reqb_true by (apply Rabs_zero_iff; exact Z1). cbn [opt_bind]. right. split; [|exact I].
    intros (q0 & q1 & Q0 & Q1 & H & _). apply H.
    rewrite (is_pivot1_unique _ _ _ Q1 P1). exact Z1. }
  rewrite Reqb_false by (rewrite Rabs_zero_iff; exact N1). cbn [opt_bind].
  rewrite swap_fin by lia. cbn [fst snd].
  set (C := Rswap 1 p1 B). set (t2 := Rswap 1 p1 t1). set (s2 := Rswap 1 p1 s1).
  assert (H2 : mmul s2 A = t2) by (unfold s2, t2; rewrite swap_mmul, H1 by lia; reflexivity).
  (* t2 is C with the first column cleared *)
  assert (C0 : forall k, (k < 3)%nat -> ent t2 0 k = ent C 0 k).
  { intros k Hk. unfold t2, C. transitivity (ent t1 0 k); [|rewrite R0 by lia].
    - destruct t1. destruct p1 as [|[|[|p1]]]; try lia; three k; reflexivity.
    - destruct B. destruct p1 as [|[|[|p1]]]; try lia; three k; reflexivity. }
  assert (C12 : forall j k, (0 < j < 3)%nat -> (k < 3)%nat ->
      ent t2 j k = ent C j k - ent C j 0 / ent C 0 0 * ent C 0 k).
  { intros j k Hj Hk. unfold t2, C.
    assert (Sw : forall m j k, (0 < j < 3)%nat -> (k < 3)%nat ->
       ent (Rswap 1 p1 m) j k = ent m (if Nat.eqb p1 1 then j else 3 - j)%nat k).
    { clear -L1. intros m j k Hj Hk. destruct m. destruct p1 as [|[|[|p1]]]; try lia;
      destruct j as [|[|[|j]]]; try lia; three k; reflexivity. }
    assert (Sw0 : forall m k, (k < 3)%nat -> ent (Rswap 1 p1 m) 0 k = ent m 0 k).
    { clear -L1. intros m k Hk. destruct m. destruct p1 as [|[|[|p1]]]; try lia; three k; reflexivity. }
    rewrite !Sw, !Sw0 by lia. apply R12; [|lia]. destruct (Nat.eqb p1 1); lia. }
  assert (NC : ent C 0 0 <> 0) by (unfold C; destruct B; destruct p1 as [|[|[|p1]]]; try lia; exact NB).
  assert (M2 : ent t2 1 1 = (ent C 0 0 * ent C 1 1 - ent C 1 0 * ent C 0 1) / ent C 0 0)
    by (rewrite C12 by lia; field; exact NC).
  assert (DC : mdet C <> 0 <-> mdet A <> 0).
  { assert (D : forall i p m, (i < 3)%nat -> (p < 3)%nat -> (mdet (Rswap i p m) = mdet m \/ mdet (Rswap i p m) = - mdet m)).
    { clear. intros i p m Hi Hp. destruct m. three i; three p; gev; (left; ring) || (right; ring). }
    unfold C, B. destruct (D 1%nat p1 (Rswap 0 p0 A) ltac:(lia) ltac:(lia)) as [D1|D1];
      destruct (D 0%nat p0 A ltac:(lia) ltac:(lia)) as [D2|D2]; rewrite D1, D2;
      split; intros X Y; apply X; lra. }
  destruct (Req_dec (ent t2 1 1) 0) as [Z2|N2].
  { right. destruct (elim1_bad t2 s2 Z2) as (t3 & s3 & E3 & B3 & B3'). rewrite E3. cbn [opt_bind].
    split.
    - intros (q0 & q1 & Q0 & Q1 & _ & _ & H & _).
      rewrite (is_pivot0_unique _ _ _ Q0 P0), (is_pivot1_unique _ _ _ Q1 P1) in H. fold B C in H. apply H.
      rewrite Z2 in M2. apply (Rmult_eq_reg_r (/ ent C 0 0)); [|apply Rinv_neq_0_compat; exact NC].
      rewrite Rmult_0_l. symmetry. exact M2.
    - pose proof (backward_bad _ _ B3 B3') as X. destruct (opt_bind _ _) as [n|]; [|exact I].
      intros [N EN]. subst n. destruct N. destruct X as [X _]. discriminate X. }
  destruct (elim1_fin _ _ _ H2 N2) as (t3 & s3 & E3 & H3 & R3 & R32). rewrite E3. cbn [opt_bind].
  assert (Z10 : ent t2 1 0 = 0) by (rewrite C12 by lia; field; exact NC).
  assert (Z20 : ent t2 2 0 = 0) by (rewrite C12 by lia; field; exact NC).
  assert (DD : mdet C = ent C 0 0 * ent t2 1 1 * ent t3 2 2).
  { rewrite R32 by lia.
    transitivity (ent C 0 0 * (ent t2 1 1 * ent t2 2 2 - ent t2 2 1 * ent t2 1 2)); [|field; exact N2].
    rewrite !C12 by lia.
    transitivity (ent C 0 0 * ent C 1 1 * ent C 2 2 + ent C 0 1 * ent C 1 2 * ent C 2 0
       + ent C 0 2 * ent C 1 0 * ent C 2 1 - ent C 0 2 * ent C 1 1 * ent C 2 0
       - ent C 0 1 * ent C 1 0 * ent C 2 2 - ent C 0 0 * ent C 1 2 * ent C 2 1).
    - destruct C; gev; ring.
    - field; exact NC. }
  destruct (backward_fin t3 s3 A H3) as [[Z22 R]|[N22 R]].
  - rewrite R3 by lia. exact Z10.
  - rewrite R32, Z20, Z10 by lia. ring.
  - rewrite R32 by lia. field. exact N2.
  - rewrite R3, C0 by lia. exact NC.
  - rewrite R3 by lia. exact N2.
  - right. split; [|rewrite R; exact I].
    intros (q0 & q1 & _ & _ & _ & _ & _ & H). apply DC in H. apply H. rewrite DD, Z22. ring.
  - left. split; [|exact R].
    exists p0, p1. split; [exact P0|]. split; [exact P1|]. cbv zeta. fold B C.
    split; [exact N1|]. split; [exact NC|]. split.
    + intro Q. apply N2. rewrite M2, Q. unfold Rdiv. ring.
    + apply DC. rewrite DD. repeat apply Rmult_integral_contrapositive_currified; assumption.
Qed.

Lemma gj_sound A N : mat_gj_inverse (FinM A) = Some (FinM N) -> is_inverse N A.
Proof.
  intro H. destruct (gj_cases A) as [[_ (N' & E & HN)]|[_ E]]; rewrite H in E.
  - injection E as E. assert (N = N') by (destruct N, N'; cbn in E; congruence). subst N'.
    apply left_is_inverse. exact HN.
  - elim E. exists N. reflexivity.
Qed.
Lemma gj_complete A : gj_ok A -> mat_gj_inverse (FinM A) = Some (FinM (minv A)).
Proof.
  intro H. destruct (gj_cases A) as [[_ (N & E & HN)]|[Q _]]; [|contradiction].
  rewrite E. apply left_inverse_unique in HN. subst N. reflexivity.
Qed.
Lemma gj_only A n : mat_gj_inverse (FinM A) = Some n -> ~ gj_ok A -> ~ exists N, n = FinM N.
Proof.
  intros H Q. destruct (gj_cases A) as [[Y _]|[_ E]]; [contradiction|]. rewrite H in E. exact E.
Qed.

End Gj.
