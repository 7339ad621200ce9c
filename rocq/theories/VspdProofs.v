(* Shared lemmas about spectra of variable length (vspd.rs) *)
From Coq Require Import Reals ZArith QArith Qreals Lra Lia List Bool.
From Flocq Require Import Core.
From Verif Require Import Outcome RealOps MathModel ColorModel InterpModel VspdModel XReal SpecLin.
Import ListNotations.
Open Scope R_scope.

(* take equal constructors off both sides, down to equations between reals *)
Ltac leq := repeat match goal with
  | |- _ :: _ = _ :: _ => f_equal
  | |- (_, _) = (_, _) => f_equal
  | |- Sample _ _ = Sample _ _ => f_equal
  | |- Vspd _ _ = Vspd _ _ => f_equal
  | |- SpdShape _ _ _ = SpdShape _ _ _ => f_equal
  | |- Uniform _ = Uniform _ => f_equal
  | |- Ret _ = Ret _ => f_equal
  | |- Fin _ = Fin _ => apply (f_equal Fin)
  end.

(* ---- lists of finite numbers and samples ---- *)
Definition Fins (l : list R) : list xr := map Fin l.
Definition FinSamp (p : R * R) : sample xr := Sample (Fin (fst p)) (Fin (snd p)).
Definition FinSamps (l : list (R * R)) : list (sample xr) := map FinSamp l.
(* sum of v_i * w_i *)
Fixpoint dotp (v w : list R) : R :=
  match v, w with
  | x :: v', y :: w' => x * y + dotp v' w'
  | _, _ => 0
  end.
(* n wavelengths from s on, spaced i *)
Definition grid (s i : R) (n : nat) : list R := map (fun k => s + INR k * i) (seq 0 n).

Lemma grid_length s i n : length (grid s i n) = n.
Proof. unfold grid. rewrite map_length, seq_length. reflexivity. Qed.
Lemma grid_nth s i n k d : (k < n)%nat -> nth k (grid s i n) d = s + INR k * i.
Proof.
  intro H. unfold grid. rewrite (nth_indep _ d (s + INR 0 * i)) by (rewrite map_length, seq_length; exact H).
  change (s + INR 0 * i) with ((fun k => s + INR k * i) 0%nat). rewrite map_nth, seq_nth by exact H. reflexivity.
Qed.
Lemma grid_nth_error s i n k : (k < n)%nat -> nth_error (grid s i n) k = Some (s + INR k * i).
Proof.
  intro H. rewrite (nth_error_nth' _ 0) by (rewrite grid_length; exact H). rewrite grid_nth by exact H. reflexivity.
Qed.
Lemma grid_S s i n : grid s i (S n) = s :: grid (s + i) i n.
Proof.
  unfold grid. cbn [seq map]. f_equal; [cbn; ring|]. rewrite <- seq_shift, map_map. apply map_ext. intro k. rewrite S_INR. ring.
Qed.
Lemma grid_app s i n m : grid s i (n + m) = grid s i n ++ grid (s + INR n * i) i m.
Proof.
  revert s. induction n as [|n IH]; intro s.
  - cbn [Nat.add app]. replace (s + INR 0 * i) with s by (cbn; ring). reflexivity.
  - cbn [Nat.add]. rewrite !grid_S, IH. cbn [app]. do 3 f_equal. rewrite S_INR. ring.
Qed.

(* ---- first, last, indexing ---- *)
Lemma last_opt_app {A} (l : list A) a : last_opt (l ++ [a]) = Some a.
Proof.
  induction l as [|x l IH]; [reflexivity|]. cbn [app]. destruct (l ++ [a]) eqn:E; [now destruct l|]. cbn [last_opt].
  cbn [last_opt] in IH. exact IH.
Qed.
Lemma last_opt_map {A B} (f : A -> B) l : last_opt (map f l) = option_map f (last_opt l).
Proof. induction l as [|x l IH]; [reflexivity|]. destruct l as [|y l]; [reflexivity|]. exact IH. Qed.
Lemma last_opt_some {A} (l : list A) : l <> [] -> exists a, last_opt l = Some a.
Proof.
  induction l as [|x l IH]; intro H; [contradiction|]. destruct l as [|y l]; [now exists x|]. apply IH. discriminate.
Qed.
Lemma last_opt_nth {A} (l : list A) d : l <> [] -> last_opt l = Some (nth (length l - 1) l d).
Proof.
  induction l as [|x l IH]; intro H; [contradiction|]. destruct l as [|y l]; [reflexivity|].
  change (last_opt (x :: y :: l)) with (last_opt (y :: l)). rewrite IH by discriminate. cbn [length].
  replace (S (S (length l)) - 1)%nat with (S (S (length l) - 1)) by lia. reflexivity.
Qed.
Lemma oindex_some {A} (l : list A) k a : nth_error l k = Some a -> oindex l k = Ret a.
Proof. intro H. unfold oindex. rewrite H. reflexivity. Qed.
Lemma oindex_none {A} (l : list A) k : (length l <= k)%nat -> oindex l k = Panic.
Proof. intro H. unfold oindex. rewrite (proj2 (nth_error_None l k) H). reflexivity. Qed.
Lemma oindex_nth {A} (l : list A) k d : (k < length l)%nat -> oindex l k = Ret (nth k l d).
Proof. intro H. apply oindex_some, nth_error_nth', H. Qed.
Lemma usize_sub_ok a b : (b <= a)%nat -> usize_sub a b = Ret (a - b)%nat.
Proof. intro H. unfold usize_sub. rewrite (proj2 (Nat.leb_le b a) H). reflexivity. Qed.
Lemma usize_sub_bad a b : (a < b)%nat -> usize_sub a b = Panic.
Proof. intro H. unfold usize_sub. rewrite (proj2 (Nat.leb_gt b a) H). reflexivity. Qed.
Lemma omap_ret {A B} (f : A -> outcome B) g l : (forall x, In x l -> f x = Ret (g x)) -> omap f l = Ret (map g l).
Proof.
  induction l as [|x l IH]; intro H; [reflexivity|]. cbn [omap map]. rewrite (H x) by (now left). cbn [obind].
  rewrite IH by (intros; apply H; now right). reflexivity.
Qed.
Lemma omap_inv {A B} (f : A -> outcome B) l : forall r, omap f l = Ret r -> Forall2 (fun x y => f x = Ret y) l r.
Proof.
  induction l as [|x l IH]; intros r H; cbn [omap] in H; [injection H as <-; constructor|].
  destruct (f x) eqn:E; try discriminate. cbn [obind] in H. destruct (omap f l) eqn:F; try discriminate.
  cbn [obind] in H. injection H as <-. constructor; [exact E|]. apply IH. reflexivity.
Qed.
Lemma ofold_ret {A S} (f : S -> A -> outcome S) g l : forall s, (forall s x, In x l -> f s x = Ret (g s x)) ->
  ofold f l s = Ret (fold_left g l s).
Proof.
  induction l as [|x l IH]; intros s H; [reflexivity|]. cbn [ofold fold_left]. rewrite H by (now left). cbn [obind].
  apply IH. intros; apply H; now right.
Qed.
Lemma map_combine_fst {A B} (l : list A) (m : list B) : length l = length m -> map fst (combine l m) = l.
Proof. revert m. induction l as [|x l IH]; intros [|y m] H; try discriminate; [reflexivity|]. cbn. f_equal. apply IH. now injection H. Qed.
Lemma map_combine_snd {A B} (l : list A) (m : list B) : length l = length m -> map snd (combine l m) = m.
Proof. revert m. induction l as [|x l IH]; intros [|y m] H; try discriminate; [reflexivity|]. cbn. f_equal. apply IH. now injection H. Qed.

(* ---- SpdShape::iter ---- *)
Definition shape (s e i : R) : spd_shape xr := SpdShape (Fin s) (Fin e) (Uniform (Fin i)).
Definition steps (s e i : R) : nat := Z.to_nat (Zfloor ((e - s) / i)).
Definition countable (s e i : R) : Prop := (e - s) / i < 18446744073709551616.

Section It.
Context {K : XConst}.

Lemma of_usize_fin k : of_usize k = Fin (INR k).
Proof. unfold of_usize. rewrite x_of_Z, <- INR_IZR_INZ. reflexivity. Qed.

Lemma to_usize_fin x : -1 < x -> x < 18446744073709551616 -> rto_usize (Fin x) = Some (Ztrunc x).
Proof.
  intros H1 H2. cbn. destruct (Rlt_dec (-1) x); [|contradiction]. destruct (Rlt_dec x _); [reflexivity|contradiction].
Qed.
Lemma to_usize_neg x : x <= -1 -> rto_usize (Fin x) = None.
Proof. intro H. cbn. destruct (Rlt_dec (-1) x); [lra|reflexivity]. Qed.

Lemma shape_iter_fin s e i : 0 < i -> s <= e -> countable s e i ->
  shape_iter (shape s e i) = Ret (Fins (grid s i (steps s e i + 1))).
Proof.
  intros Hi Hse Hc. unfold shape_iter, shape. cbn [sh_interval sh_start sh_end]. rewrite x_sub, x_div by lra.
  assert (P : 0 <= (e - s) / i). { apply Rmult_le_pos; [lra|left; apply Rinv_0_lt_compat, Hi]. }
  rewrite to_usize_fin by (exact Hc || lra).
  cbn [unwrap obind]. rewrite Ztrunc_floor by exact P. unfold steps, Fins, grid. rewrite map_map.
  f_equal. apply map_ext. intro k. rewrite of_usize_fin, x_mul, x_add. reflexivity.
Qed.
(* the range is less than one interval short: only the start *)
Lemma shape_iter_one s e i : 0 < i -> s - i < e -> e < s -> shape_iter (shape s e i) = Ret [Fin s].
Proof.
  intros Hi H1 H2. unfold shape_iter, shape. cbn [sh_interval sh_start sh_end]. rewrite x_sub, x_div by lra.
  assert (P : -1 < (e - s) / i).
  { apply (Rmult_lt_reg_r i); [exact Hi|]. unfold Rdiv. rewrite Rmult_assoc, Rinv_l by lra. lra. }
  assert (N : (e - s) / i <= 0).
  { apply (Rmult_le_reg_r i); [exact Hi|]. unfold Rdiv. rewrite Rmult_assoc, Rinv_l by lra. lra. }
  rewrite to_usize_fin by lra.
  cbn [unwrap obind].
  assert (Z : Ztrunc ((e - s) / i) = 0%Z).
  { rewrite Ztrunc_ceil by exact N. apply Zceil_imp. cbn. lra. }
  rewrite Z. cbn [Z.to_nat Nat.add seq map]. rewrite of_usize_fin. xs. do 3 f_equal. cbn. ring.
Qed.
Lemma shape_iter_panic s e i : 0 < i -> e <= s - i -> shape_iter (shape s e i) = Panic.
Proof.
  intros Hi H. unfold shape_iter, shape. cbn [sh_interval sh_start sh_end]. rewrite x_sub, x_div by lra.
  assert (P : (e - s) / i <= -1).
  { apply (Rmult_le_reg_r i); [exact Hi|]. unfold Rdiv. rewrite Rmult_assoc, Rinv_l by lra. lra. }
  rewrite to_usize_neg by exact P. reflexivity.
Qed.
Lemma steps_spec s e i : 0 < i -> s <= e -> s + INR (steps s e i) * i <= e < s + INR (S (steps s e i)) * i.
Proof.
  intros Hi H. unfold steps.
  assert (P : 0 <= (e - s) / i). { apply Rmult_le_pos; [lra|left; apply Rinv_0_lt_compat, Hi]. }
  assert (Z : (0 <= Zfloor ((e - s) / i))%Z) by (apply Zfloor_lub; exact P).
  rewrite S_INR, INR_IZR_INZ, Z2Nat.id by exact Z.
  pose proof (Zfloor_lb ((e - s) / i)) as L. pose proof (Zfloor_ub ((e - s) / i)) as U.
  assert (E : (e - s) / i * i = e - s) by (field; lra).
  split; nra.
Qed.
End It.

(* ---- sums and evenly spaced samples ---- *)
Section Sums.
Context {K : XConst}.

Lemma fold_add_fin l : forall a, fold_left radd (Fins l) (Fin a) = Fin (fold_left Rplus l a).
Proof. induction l as [|x l IH]; intro a; [reflexivity|]. cbn [Fins map fold_left]. rewrite x_add. apply IH. Qed.
Definition rsum (l : list R) : R := fold_right Rplus 0 l.
Lemma fold_left_rsum l : forall a, fold_left Rplus l a = a + rsum l.
Proof. induction l as [|x l IH]; intro a; cbn [fold_left rsum fold_right]; [ring|]. rewrite IH. unfold rsum. ring. Qed.
Lemma fsum_fin l : fsum (Fins l) = Fin (rsum l).
Proof.
  unfold fsum. rewrite x_litd. replace (Q2R 0.0) with 0 by (q2r; lra). rewrite fold_add_fin, fold_left_rsum. f_equal. ring.
Qed.
Lemma zip_mul_fin a : forall b, zip_mul (Fins a) (Fins b) = Fins (map (fun p => fst p * snd p) (combine a b)).
Proof.
  unfold zip_mul. induction a as [|x a IH]; intros [|y b]; try reflexivity. cbn [Fins map combine]. rewrite x_mul.
  cbn [fst snd]. f_equal. apply IH.
Qed.
Lemma dotp_rsum a : forall b, rsum (map (fun p => fst p * snd p) (combine a b)) = dotp a b.
Proof. induction a as [|x a IH]; intros [|y b]; try reflexivity. cbn [combine map rsum fold_right dotp fst snd]. fold (rsum (map (fun p => fst p * snd p) (combine a b))). rewrite IH. reflexivity. Qed.
Lemma fsum_zip_fin a b : fsum (zip_mul (Fins a) (Fins b)) = Fin (dotp a b).
Proof. rewrite zip_mul_fin, fsum_fin, dotp_rsum. reflexivity. Qed.

(* evenly spaced samples with the given values *)
Definition even (s h : R) (vals : list R) : list (R * R) := combine (grid s h (length vals)) vals.
Lemma even_length s h vals : length (even s h vals) = length vals.
Proof. unfold even. rewrite combine_length, grid_length. lia. Qed.
Lemma even_nth s h vals k d : (k < length vals)%nat -> nth k (even s h vals) d = (s + INR k * h, nth k vals 0).
Proof.
  intro H. rewrite (nth_indep _ d (0, 0)) by (rewrite even_length; exact H). unfold even.
  rewrite combine_nth by apply grid_length. rewrite grid_nth by exact H. reflexivity.
Qed.
Lemma even_nms s h vals : map fst (even s h vals) = grid s h (length vals).
Proof. apply map_combine_fst, grid_length. Qed.
Lemma even_vals s h vals : map snd (even s h vals) = vals.
Proof. apply map_combine_snd, grid_length. Qed.
Lemma nms_fin l : map s_nm (FinSamps l) = Fins (map fst l).
Proof. unfold FinSamps, Fins. rewrite !map_map. reflexivity. Qed.
Lemma vals_fin l : map s_v (FinSamps l) = Fins (map snd l).
Proof. unfold FinSamps, Fins. rewrite !map_map. reflexivity. Qed.
Lemma even_cons s h v vals : even s h (v :: vals) = (s, v) :: even (s + h) h vals.
Proof. unfold even. cbn [length]. rewrite grid_S. reflexivity. Qed.
Lemma even_last s h vals : vals <> [] -> last_opt (even s h vals) = Some (s + INR (length vals - 1) * h, nth (length vals - 1) vals 0).
Proof.
  intro H. assert (L : (0 < length vals)%nat) by (destruct vals; [contradiction|cbn; lia]).
  rewrite (last_opt_nth _ (0, 0)); [|intro E; apply (f_equal (@length _)) in E; rewrite even_length in E; cbn in E; lia].
  rewrite even_length, even_nth by lia. reflexivity.
Qed.
End Sums.

(* ---- Iterator::position ---- *)
Lemma position_some {A} (p : A -> bool) l k y : nth_error l k = Some y -> p y = true ->
  (forall j z, (j < k)%nat -> nth_error l j = Some z -> p z = false) -> position p l = Some k.
Proof.
  revert k. induction l as [|a l IH]; intros k H1 H2 H3; [destruct k; discriminate|]. destruct k as [|k].
  - cbn in H1. injection H1 as ->. cbn. rewrite H2. reflexivity.
  - cbn [position]. rewrite (H3 0%nat a) by (lia || reflexivity). rewrite (IH k) ; [reflexivity|exact H1|exact H2|].
    intros j z Hj Hz. apply (H3 (S j) z); [lia|exact Hz].
Qed.
Lemma position_none {A} (p : A -> bool) l : (forall z, In z l -> p z = false) -> position p l = None.
Proof.
  induction l as [|a l IH]; intro H; [reflexivity|]. cbn [position]. rewrite (H a) by now left. rewrite IH; [reflexivity|].
  intros; apply H; now right.
Qed.
