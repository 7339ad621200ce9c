(* Lemmas about Sprague interpolation (interpolation.rs) in exact arithmetic *)
From Coq Require Import Reals ZArith QArith Qreals Lra Lia List Bool.
From Flocq Require Import Core.
From Verif Require Import Outcome RealOps MathModel ColorModel InterpModel VspdModel XReal SpecLin VspdProofs.
Import ListNotations.
Open Scope R_scope.

(* ---- polynomials given by their coefficients, and two derivatives ---- *)
Fixpoint P0 (l : list R) (x : R) : R := match l with [] => 0 | a :: l => a + x * P0 l x end.
Fixpoint P1 (l : list R) (x : R) : R := match l with [] => 0 | a :: l => P0 l x + x * P1 l x end.
Fixpoint P2 (l : list R) (x : R) : R := match l with [] => 0 | a :: l => 2 * P1 l x + x * P2 l x end.

Lemma P0_deriv l : forall x, derivable_pt_lim (P0 l) x (P1 l x).
Proof.
  induction l as [|a l IH]; intro x; cbn [P0 P1]; [apply derivable_pt_lim_const|].
  replace (P0 l x + x * P1 l x) with (0 + (1 * P0 l x + x * P1 l x)) by ring.
  apply (derivable_pt_lim_plus (fun _ => a) (fun x => x * P0 l x)); [apply derivable_pt_lim_const|].
  apply (derivable_pt_lim_mult (fun x => x) (P0 l)); [apply derivable_pt_lim_id|apply IH].
Qed.
Lemma P1_deriv l : forall x, derivable_pt_lim (P1 l) x (P2 l x).
Proof.
  induction l as [|a l IH]; intro x; cbn [P1 P2]; [apply derivable_pt_lim_const|].
  replace (2 * P1 l x + x * P2 l x) with (P1 l x + (1 * P1 l x + x * P2 l x)) by ring.
  apply (derivable_pt_lim_plus (P0 l) (fun x => x * P1 l x)); [apply P0_deriv|].
  apply (derivable_pt_lim_mult (fun x => x) (P1 l)); [apply derivable_pt_lim_id|apply IH].
Qed.
Lemma P2_cont l : forall x, continuity_pt (P2 l) x.
Proof.
  induction l as [|a l IH]; intro x; cbn [P2]; [apply continuity_pt_const; intros ? ?; reflexivity|].
  apply (continuity_pt_plus (fun x => 2 * P1 l x) (fun x => x * P2 l x)).
  - apply (continuity_pt_mult (fun _ => 2) (P1 l)); [apply continuity_pt_const; intros ? ?; reflexivity|].
    apply derivable_continuous_pt. exists (P2 l x). apply P1_deriv.
  - apply (continuity_pt_mult (fun x => x) (P2 l)); [apply derivable_continuous_pt; exists 1; apply derivable_pt_lim_id|apply IH].
Qed.
Lemma affine_deriv f f' c h : h <> 0 -> (forall x, derivable_pt_lim f x (f' x)) ->
  forall x, derivable_pt_lim (fun x => f ((x - c) / h)) x (f' ((x - c) / h) / h).
Proof.
  intros Hh H x. unfold Rdiv at 3.
  apply (derivable_pt_lim_comp (fun x => (x - c) / h) f); [|apply H].
  replace (/ h) with ((1 - 0) * / h + (x - c) * 0) by ring.
  apply (derivable_pt_lim_mult (fun x => x - c) (fun _ => / h)); [|apply derivable_pt_lim_const].
  apply (derivable_pt_lim_minus (fun x => x) (fun _ => c)); [apply derivable_pt_lim_id|apply derivable_pt_lim_const].
Qed.
Lemma affine_cont f c h : h <> 0 -> (forall x, continuity_pt f x) -> forall x, continuity_pt (fun x => f ((x - c) / h)) x.
Proof.
  intros Hh H x. apply (continuity_pt_comp (fun x => (x - c) / h) f); [|apply H].
  apply derivable_continuous_pt. exists (P1 [- c / h; / h] x).
  apply (derivable_pt_lim_ext (P0 [- c / h; / h])); [|apply P0_deriv]. intro z. cbn. field. exact Hh.
Qed.

(* ---- functions given piecewise on a grid ---- *)
Section Piecewise.
Context (a h : R) (lo hi : nat) (Hh : 0 < h) (Hl : (lo <= hi)%nat).
(* the piece x belongs to; below lo and above hi the end pieces go on *)
Definition piece (x : R) : nat := Nat.min (Nat.max (Z.to_nat (Zfloor ((x - a) / h))) lo) hi.
Definition pw (F : nat -> R -> R) (x : R) : R := F (piece x) x.

Lemma floor_at x k : a + IZR k * h <= x < a + IZR (k + 1) * h -> Zfloor ((x - a) / h) = k.
Proof.
  intros [A B]. apply Zfloor_imp. assert (E : (x - a) / h * h = x - a) by (field; lra).
  split.
  - apply (Rmult_le_reg_r h); [exact Hh|lra].
  - apply (Rmult_lt_reg_r h); [exact Hh|lra].
Qed.
(* near x, points on the left belong to piece i and points from x on to piece j; i = j unless x is a knot *)
Lemma piece_near x : exists d i, 0 < d
  /\ (forall y, x <= y < x + d -> piece y = piece x) /\ (forall y, x - d < y < x -> piece y = i)
  /\ (i = piece x \/ (piece x = S i /\ (lo <= i < hi)%nat /\ x = a + INR (S i) * h)).
Proof.
  set (k := Zfloor ((x - a) / h)). assert (E : (x - a) / h * h = x - a) by (field; lra).
  pose proof (Zfloor_lb ((x - a) / h)) as L. pose proof (Zfloor_ub ((x - a) / h)) as U. fold k in L, U.
  assert (L' : a + IZR k * h <= x) by nra. assert (U' : x < a + IZR (k + 1) * h) by (rewrite plus_IZR; nra).
  assert (Q : piece x = Nat.min (Nat.max (Z.to_nat k) lo) hi) by reflexivity.
  destruct (Rle_lt_or_eq_dec _ _ L') as [Sx|Sx].
  - exists (Rmin (x - (a + IZR k * h)) (a + IZR (k + 1) * h - x)), (piece x).
    assert (D : 0 < Rmin (x - (a + IZR k * h)) (a + IZR (k + 1) * h - x)) by (apply Rmin_glb_lt; lra).
    pose proof (Rmin_l (x - (a + IZR k * h)) (a + IZR (k + 1) * h - x)). pose proof (Rmin_r (x - (a + IZR k * h)) (a + IZR (k + 1) * h - x)).
    split; [exact D|]. repeat apply conj; [| |now left];
      intros y Hy; rewrite Q; unfold piece; rewrite (floor_at y k) by lra; reflexivity.
  - exists (Rmin h (a + IZR (k + 1) * h - x)), (Nat.min (Nat.max (Z.to_nat (k - 1)) lo) hi).
    assert (D : 0 < Rmin h (a + IZR (k + 1) * h - x)) by (apply Rmin_glb_lt; lra).
    pose proof (Rmin_l h (a + IZR (k + 1) * h - x)). pose proof (Rmin_r h (a + IZR (k + 1) * h - x)).
    split; [exact D|]. repeat apply conj.
    + intros y Hy. rewrite Q. unfold piece. rewrite (floor_at y k) by lra. reflexivity.
    + intros y Hy. unfold piece. rewrite (floor_at y (k - 1)); [reflexivity|]. rewrite minus_IZR. replace (k - 1 + 1)%Z with k by lia. lra.
    + rewrite Q. destruct (Z.le_gt_cases k (Z.of_nat lo)) as [C|C]; [left; lia|].
      destruct (Z.le_gt_cases k (Z.of_nat hi)) as [C'|C']; [|left; lia].
      right. assert (N : Nat.min (Nat.max (Z.to_nat (k - 1)) lo) hi = Z.to_nat (k - 1)) by lia. rewrite N.
      replace (S (Z.to_nat (k - 1))) with (Z.to_nat k) by lia. repeat apply conj; try lia.
      rewrite INR_IZR_INZ, Z2Nat.id by lia. lra.
Qed.
Definition fits (F : nat -> R -> R) : Prop :=
  forall i, (lo <= i < hi)%nat -> F i (a + INR (S i) * h) = F (S i) (a + INR (S i) * h).
Lemma pw_deriv F G : fits F -> fits G -> (forall i x, derivable_pt_lim (F i) x (G i x)) ->
  forall x, derivable_pt_lim (pw F) x (pw G x).
Proof.
  intros HF HG HD x eps He. destruct (piece_near x) as (d & i & Hd & R & L & J).
  destruct (HD (piece x) x eps He) as [d1 D1]. destruct (HD i x eps He) as [d2 D2].
  assert (M : 0 < Rmin d (Rmin d1 d2)) by (apply Rmin_glb_lt; [exact Hd|apply Rmin_glb_lt; apply cond_pos]).
  exists (mkposreal _ M). intros t Ht Hs. cbn in Hs.
  pose proof (Rmin_l d (Rmin d1 d2)). pose proof (Rmin_r d (Rmin d1 d2)). pose proof (Rmin_l d1 d2). pose proof (Rmin_r d1 d2).
  assert (Fx : F i x = F (piece x) x /\ G i x = G (piece x) x).
  { destruct J as [->|(E & B & X)]; [split; reflexivity|]. rewrite E. split; rewrite X; [apply HF|apply HG]; exact B. }
  destruct Fx as [Fx Gx]. unfold pw. destruct (Rlt_or_le t 0) as [N|P].
  - rewrite (L (x + t)); [|apply Rabs_def2 in Hs; lra]. rewrite <- Fx, <- Gx. apply D2; [exact Ht|lra].
  - rewrite (R (x + t)); [|apply Rabs_def2 in Hs; lra]. apply D1; [exact Ht|lra].
Qed.
Lemma pw_cont F : fits F -> (forall i x, continuity_pt (F i) x) -> forall x, continuity_pt (pw F) x.
Proof.
  intros HF HC x eps He. destruct (piece_near x) as (d & i & Hd & R & L & J).
  destruct (HC (piece x) x eps He) as (d1 & P1' & D1). destruct (HC i x eps He) as (d2 & P2' & D2).
  exists (Rmin d (Rmin d1 d2)). split; [repeat apply Rmin_glb_lt; assumption|].
  intros y [N Hy]. cbn in Hy. unfold R_dist in Hy.
  pose proof (Rmin_l d (Rmin d1 d2)). pose proof (Rmin_r d (Rmin d1 d2)). pose proof (Rmin_l d1 d2). pose proof (Rmin_r d1 d2).
  assert (Fx : F i x = F (piece x) x).
  { destruct J as [->|(E & B & X)]; [reflexivity|]. rewrite E. rewrite X; apply HF; exact B. }
  unfold pw. destruct (Rlt_or_le y x) as [C|C].
  - rewrite (L y); [|apply Rabs_def2 in Hy; lra]. rewrite <- Fx. apply D2. split; [exact N|]. cbn. unfold R_dist. lra.
  - rewrite (R y); [|apply Rabs_def2 in Hy; lra]. apply D1. split; [exact N|]. cbn. unfold R_dist. lra.
Qed.
End Piecewise.

(* ---- the interpolator ---- *)
Definition C0 : list R := [884; -1960; 3033; -2648; 1080; -180].
Definition C1 : list R := [508; -540; 488; -367; 144; -24].
(* the values with two more on each side *)
Definition ext (vals : list R) : list R :=
  [dotp C0 vals / 209; dotp C1 vals / 209] ++ vals ++ [dotp C1 (rev vals) / 209; dotp C0 (rev vals) / 209].
(* coefficients of the polynomial of the segment from point i of six neighbouring points *)
Definition seg6 (r0 r1 r2 r3 r4 r5 : R) : list R :=
  [r2;
   (2 * r0 - 16 * r1 + 16 * r3 - 2 * r4) / 24;
   (- r0 + 16 * r1 - 30 * r2 + 16 * r3 - r4) / 24;
   (- 9 * r0 + 39 * r1 - 70 * r2 + 66 * r3 - 33 * r4 + 7 * r5) / 24;
   (13 * r0 - 64 * r1 + 126 * r2 - 124 * r3 + 61 * r4 - 12 * r5) / 24;
   (- 5 * r0 + 25 * r1 - 50 * r2 + 50 * r3 - 25 * r4 + 5 * r5) / 24].
Definition seg (y : list R) (i : nat) : list R :=
  seg6 (nth (i - 2) y 0) (nth (i - 1) y 0) (nth i y 0) (nth (i + 1) y 0) (nth (i + 2) y 0) (nth (i + 3) y 0).

Lemma ext_length vals : length (ext vals) = (length vals + 4)%nat.
Proof. unfold ext. rewrite !app_length. cbn [length]. lia. Qed.
Lemma ext_nth vals k : (k < length vals)%nat -> nth (k + 2) (ext vals) 0 = nth k vals 0.
Proof. intro H. unfold ext. replace (k + 2)%nat with (S (S k)) by lia. cbn [app nth]. apply app_nth1, H. Qed.

Section Sp.
Context {K : XConst}.

Lemma c0_fin : coeff_c0 = Fins C0.
Proof. unfold coeff_c0, C0, Fins. cbn [map]. xs. leq; clear; q2r; lra. Qed.
Lemma c1_fin : coeff_c1 = Fins C1.
Proof. unfold coeff_c1, C1, Fins. cbn [map]. xs. leq; clear; q2r; lra. Qed.
Lemma c2_fin : rev coeff_c2 = Fins C1.
Proof. unfold coeff_c2, C1, Fins. cbn [rev app map]. xs. leq; clear; q2r; lra. Qed.
Lemma c3_fin : rev coeff_c3 = Fins C0.
Proof. unfold coeff_c3, C0, Fins. cbn [rev app map]. xs. leq; clear; q2r; lra. Qed.

Lemma sprague_new_even s h vals sh : (2 <= length vals)%nat ->
  sprague_new (Vspd (FinSamps (even s h vals)) sh)
  = Ret (Sprague (Fins (grid (s - 2 * h) h (length vals + 4))) (Fins (ext vals))).
Proof.
  intro L. unfold sprague_new, v_first, v_last. cbn [v_samples].
  rewrite nms_fin, vals_fin, even_nms, even_vals.
  assert (Ela : last_opt (FinSamps (even s h vals)) = Some (FinSamp (s + INR (length vals - 1) * h, nth (length vals - 1) vals 0))).
  { unfold FinSamps. rewrite last_opt_map, even_last; [reflexivity|]. intros ->. cbn in L. lia. }
  rewrite Ela. clear Ela.
  assert (Efi : first_opt (FinSamps (even s h vals)) = Some (FinSamp (s, nth 0 vals 0))).
  { destruct vals as [|v vals]; [cbn in L; lia|]. rewrite even_cons. reflexivity. }
  rewrite Efi. clear Efi. cbn [unwrap obind].
  assert (E1 : nth_error (FinSamps (even s h vals)) 1 = Some (FinSamp (s + h, nth 1 vals 0))).
  { destruct vals as [|v [|v' vals]]; [cbn in L; lia|cbn in L; lia|]. rewrite !even_cons. reflexivity. }
  rewrite (oindex_some _ _ _ E1). clear E1. cbn [obind FinSamp s_nm fst].
  replace (rev (Fins vals)) with (Fins (rev vals)) by apply map_rev.
  rewrite c0_fin, c1_fin, c2_fin, c3_fin, !fsum_zip_fin. xs. rewrite !x_div by (clear; q2r; lra).
  do 2 f_equal.
  - replace (length vals + 4)%nat with (S (S (length vals + 2))) by lia. rewrite !grid_S, grid_app.
    replace (s - 2 * h + h + h) with s by ring. unfold Fins. cbn [map app]. rewrite map_app.
    assert (N : INR (length vals) = INR (length vals - 1) + 1) by (rewrite <- S_INR; f_equal; lia).
    f_equal; [apply (f_equal Fin); clear; q2r; lra|]. f_equal; [apply (f_equal Fin); ring|]. f_equal.
    unfold grid. cbn [seq map INR]. rewrite N. leq; clear; q2r; lra.
  - unfold ext, Fins. rewrite !map_app. cbn [map app]. replace (Q2R 209.0) with 209 by (clear; q2r; lra). reflexivity.
Qed.

Lemma nthF y i : (i < length y)%nat -> nth_error (Fins y) i = Some (Fin (nth i y 0)).
Proof. intro H. unfold Fins. rewrite nth_error_map, (nth_error_nth' y 0 H). reflexivity. Qed.

Lemma coeff_a_fin y i : (2 <= i)%nat -> (i + 3 < length y)%nat -> coeff_a (Fins y) i = Ret (Fins (seg y i)).
Proof.
  intros H1 H2. unfold coeff_a. rewrite !usize_sub_ok by lia. cbn [obind].
  rewrite !(oindex_some _ _ _ (nthF y _ ltac:(lia))) || idtac.
  rewrite (oindex_some _ _ _ (nthF y (i - 2) ltac:(lia))), (oindex_some _ _ _ (nthF y (i - 1) ltac:(lia))),
    (oindex_some _ _ _ (nthF y i ltac:(lia))), (oindex_some _ _ _ (nthF y (i + 1) ltac:(lia))),
    (oindex_some _ _ _ (nthF y (i + 2) ltac:(lia))), (oindex_some _ _ _ (nthF y (i + 3) ltac:(lia))).
  cbn [obind]. xs. rewrite !x_div by (clear; q2r; lra). unfold seg, seg6, Fins. cbn [map]. do 2 f_equal.
  leq; clear; q2r; lra.
Qed.

(* the segment index on an even grid *)
Lemma index_grid debug a h m x j : 0 < h -> (6 <= m)%nat -> (j < m - 1)%nat -> a + INR j * h <= x < a + INR (S j) * h ->
  sprague_index debug (Fins (grid a h m)) (Fin x) = Ret (Nat.min (Nat.max j 2) (m - 4)).
Proof.
  intros Hh Hm Hj Hx. unfold sprague_index.
  assert (P : position (fun t => rlt (Fin x) t) (Fins (grid a h m)) = Some (S j)).
  { apply (position_some _ _ _ (Fin (a + INR (S j) * h))).
    - unfold Fins. rewrite nth_error_map, grid_nth_error by lia. reflexivity.
    - rewrite x_lt. apply Rltb_true. lra.
    - intros k z Hk Hz. unfold Fins in Hz. rewrite nth_error_map, grid_nth_error in Hz by lia. cbn in Hz. injection Hz as <-.
      rewrite x_lt. apply Rltb_false. assert (INR k <= INR j) by (apply le_INR; lia). nra. }
  rewrite P. cbn [unwrap obind]. unfold Fins. rewrite map_length, grid_length, usize_sub_ok by lia. reflexivity.
Qed.

Lemma evaluate_grid debug a h y x j : 0 < h -> (6 <= length y)%nat -> (j < length y - 1)%nat ->
  a + INR j * h <= x < a + INR (S j) * h ->
  sprague_evaluate debug (Sprague (Fins (grid a h (length y))) (Fins y)) (Fin x)
  = (let i := Nat.min (Nat.max j 2) (length y - 4) in
     Ret (Fin (P0 (seg y i) ((x - (a + INR i * h)) / h)))).
Proof.
  intros Hh Hm Hj Hx. unfold sprague_evaluate. cbn [sp_x sp_y].
  rewrite (index_grid debug a h (length y) x j) by assumption. cbn [obind]. cbv zeta.
  set (i := Nat.min (Nat.max j 2) (length y - 4)). assert (Hi : (2 <= i)%nat /\ (i + 3 < length y)%nat) by (unfold i; lia).
  assert (N : forall k, (k < length y)%nat -> nth_error (Fins (grid a h (length y))) k = Some (Fin (a + INR k * h))).
  { intros k Hk. unfold Fins. rewrite nth_error_map, grid_nth_error by exact Hk. reflexivity. }
  rewrite (oindex_some _ _ _ (N i ltac:(lia))), (oindex_some _ _ _ (N (i + 1)%nat ltac:(lia))). cbn [obind].
  rewrite coeff_a_fin by lia. cbn [obind]. rewrite !x_sub, plus_INR. cbn [INR].
  replace (a + (INR i + 1) * h - (a + INR i * h)) with h by ring. rewrite x_div by lra.
  unfold seg, seg6, Fins. cbn [map]. set (t := (x - (a + INR i * h)) / h).
  rewrite x_powi2, x_powi3, x_powi4, x_powi5. xs. cbn [P0]. do 2 f_equal. ring.
Qed.

(* the same for the interpolator of an even spectrum: point j of the extended grid is sample j - 2 *)
Lemma evaluate_even debug s h vals x : 0 < h -> (2 <= length vals)%nat ->
  s - 2 * h <= x < s + (INR (length vals) + 1) * h ->
  sprague_evaluate debug (Sprague (Fins (grid (s - 2 * h) h (length vals + 4))) (Fins (ext vals))) (Fin x)
  = (let i := piece (s - 2 * h) h 2 (length vals) x in
     Ret (Fin (P0 (seg (ext vals) i) ((x - (s - 2 * h + INR i * h)) / h)))).
Proof.
  intros Hh L Hx. rewrite <- ext_length.
  set (j := Z.to_nat (Zfloor ((x - (s - 2 * h)) / h))).
  assert (E : (x - (s - 2 * h)) / h * h = x - (s - 2 * h)) by (field; lra).
  assert (B : s - 2 * h + INR j * h <= x < s - 2 * h + INR (S j) * h).
  { exact (steps_spec (s - 2 * h) x h Hh (proj1 Hx)). }
  assert (J : (j < length vals + 3)%nat).
  { apply INR_lt. rewrite plus_INR. cbn [INR]. apply (Rmult_lt_reg_r h); [exact Hh|]. lra. }
  rewrite (evaluate_grid debug (s - 2 * h) h (ext vals) x j); [|exact Hh|rewrite ext_length; lia|rewrite ext_length; lia|exact B].
  rewrite ext_length. cbv zeta. unfold piece. fold j. replace (length vals + 4 - 4)%nat with (length vals) by lia. reflexivity.
Qed.
End Sp.
