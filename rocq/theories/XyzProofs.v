(* Closed forms for align on matching grids and for to_xyz (vspd.rs 397-526), exact arithmetic *)
From Coq Require Import Reals ZArith QArith Qreals Lra Lia List Bool.
From Flocq Require Import Core.
From Verif Require Import Outcome RealOps MathModel ColorModel InterpModel VspdModel XReal SpecLin VspdProofs PropShape SpragueProofs PropSprague AlignProofs PropAlign LagrangeProofs WeightProofs PropWeights.
Import ListNotations.
Open Scope R_scope.

Lemma even_at F a i n : at_ F (grid a i n) = even a i (map F (grid a i n)).
Proof.
  unfold at_, even. rewrite map_length, grid_length. generalize (grid a i n). induction l as [|x l IH]; [reflexivity|]. cbn [map combine]. rewrite IH. reflexivity.
Qed.
Lemma steps_mono a a' b i : 0 < i -> a <= a' -> a' <= b -> (steps a' b i <= steps a b i)%nat.
Proof.
  intros Hi H1 H2. destruct (steps_spec a b i Hi ltac:(lra)) as [A B]. destruct (steps_spec a' b i Hi H2) as [C D]. rewrite S_INR in B.
  assert (INR (steps a' b i) < INR (steps a b i) + 1).
  { apply (Rmult_lt_reg_r i); [exact Hi|]. nra. }
  rewrite <- S_INR in H. apply INR_lt in H. lia.
Qed.

Section X.
Context {K : XConst}.

(* an evenly spaced spectrum that can be aligned to a .. b step i and lands on that grid *)
Definition alignable (s e h : R) (vals : list R) (a b i : R) : Prop :=
  0 < h /\ (2 <= length vals)%nat /\ s <= e /\ e < s + (INR (length vals) + 1) * h /\ 0 < i /\ Rmax a s <= Rmin b e /\ countable a b i
  /\ (s <= a \/ on_grid a i s) /\ (b <= e \/ on_grid a i e).
Definition resampled (s e h : R) (vals : list R) (a b i : R) : list R := map (av s e h vals) (grid a i (steps a b i + 1)).

Lemma resampled_length s e h vals a b i : length (resampled s e h vals a b i) = (steps a b i + 1)%nat.
Proof. unfold resampled. rewrite map_length. apply grid_length. Qed.
Lemma resampled_nth s e h vals a b i k : (k <= steps a b i)%nat -> nth k (resampled s e h vals a b i) 0 = av s e h vals (a + INR k * i).
Proof.
  intro H. unfold resampled. rewrite nth_indep with (d' := av s e h vals 0) by (rewrite map_length, grid_length; lia). rewrite map_nth, grid_nth by lia. reflexivity.
Qed.
Lemma align_uspd debug fuel s e h vals iv a b i : alignable s e h vals a b i -> (steps a b i <= fuel)%nat ->
  vspd_align debug fuel (uspd s e h vals iv) (shape a b i) = Ret (uspd a b i (resampled s e h vals a b i) (Uniform (Fin i))).
Proof.
  intros (Hh & L & Hse & He & Hi & Hab & Hc & Hs & Hb) Hf.
  pose proof (Rmax_l a s) as Ma. pose proof (Rmin_l b e) as Nb.
  assert (Hc' : countable (Rmax a s) (Rmin b e) i).
  { unfold countable in *. eapply Rle_lt_trans; [|exact Hc]. apply Rmult_le_compat_r; [left; apply Rinv_0_lt_compat, Hi|lra]. }
  unfold uspd. rewrite align_even; try assumption.
  - rewrite aligned_on_grid by assumption. rewrite even_at. reflexivity.
  - eapply Nat.le_trans; [|exact Hf].
    assert (A : exists m, Rmax a s = a + INR m * i).
    { destruct Hs as [H|[m H]]; [exists 0%nat; rewrite Rmax_left by exact H; cbn; ring|]. exists m. rewrite Rmax_right; [exact H|]. pose proof (pos_INR m). nra. }
    destruct A as [m Em]. unfold npre. rewrite Rmin_right by exact Ma. rewrite (Zceil_imp (Z.of_nat m)).
    2: { rewrite minus_IZR, <- INR_IZR_INZ. replace ((Rmax a s - a) / i) with (INR m) by (rewrite Em; field; lra). lra. }
    rewrite Nat2Z.id. destruct (steps_spec a b i Hi ltac:(lra)) as [_ B].
    assert (INR m < INR (S (steps a b i))). { apply (Rmult_lt_reg_r i); [exact Hi|]. lra. }
    apply INR_lt in H. lia.
  - eapply Nat.le_trans; [|exact Hf]. unfold npost. rewrite Rmax_right by exact Nb. change (steps (Rmin b e) b i <= steps a b i)%nat. apply steps_mono; [exact Hi|lra|exact Nb].
Qed.
(* a spectrum already on the grid *)
Lemma on_own_grid a b i vals : 0 < i -> a <= b -> countable a b i -> length vals = (steps a b i + 1)%nat -> (1 <= steps a b i)%nat -> alignable a b i vals a b i.
Proof.
  intros Hi Hab Hc L S1. destruct (steps_spec a b i Hi Hab) as [_ B]. rewrite S_INR in B. unfold alignable. rewrite L, plus_INR. cbn [INR].
  rewrite Rmax_left, Rmin_left by lra. repeat apply conj; try assumption; try lia; try lra; left; lra.
Qed.
Lemma av_knot a b i vals k : 0 < i -> (2 <= length vals)%nat -> (k < length vals)%nat -> a <= b -> a + INR k * i <= b -> av a b i vals (a + INR k * i) = nth k vals 0.
Proof.
  intros Hi L Hk Hab H. pose proof (pos_INR k). unfold av. rewrite Rmin_left by exact H. rewrite Rmax_right by nra. apply sv_knot; assumption.
Qed.
Lemma resampled_own a b i vals : 0 < i -> a <= b -> length vals = (steps a b i + 1)%nat -> (1 <= steps a b i)%nat -> resampled a b i vals a b i = vals.
Proof.
  intros Hi Hab L S1. apply nth_ext with (d := 0) (d' := 0); [rewrite resampled_length; auto|]. intros k Hk. rewrite resampled_length in Hk.
  rewrite resampled_nth by lia. destruct (steps_spec a b i Hi Hab) as [A _]. assert (INR k <= INR (steps a b i)) by (apply le_INR; lia). apply av_knot; try assumption; try lia. nra.
Qed.
(* constant spectra *)
Lemma sv_const s h n v x : h <> 0 -> (6 <= n)%nat -> sv s h (repeat v n) x = v.
Proof.
  intros Hh L. replace (repeat v n) with (map (lin v 0) (grid s h n)).
  2: { unfold grid. rewrite map_map. rewrite <- (seq_length n 0) at 2. generalize (seq 0 n). induction l as [|k l IH]; [reflexivity|]. cbn [map length repeat]. rewrite IH. f_equal. unfold lin. ring. }
  unfold sv. rewrite map_length, grid_length. set (j := piece _ _ _ _ _). assert (Hj : (2 <= j <= n)%nat) by (unfold j, piece; lia). rewrite ext_lin by exact L.
  assert (N : forall k, (k < n + 4)%nat -> nth k (map (lin v 0) (grid (s - 2 * h) h (n + 4))) 0 = v).
  { intros k Hk. rewrite (nth_indep _ 0 (lin v 0 0)) by (rewrite map_length, grid_length; exact Hk). rewrite map_nth. unfold lin. ring. }
  unfold seg. rewrite !N by lia. unfold seg6. cbn [P0]. field. exact Hh.
Qed.
Lemma resampled_const s e h n v a b i : h <> 0 -> (6 <= n)%nat -> resampled s e h (repeat v n) a b i = repeat v (steps a b i + 1).
Proof.
  intros Hh L. unfold resampled. rewrite (map_ext _ (fun _ => v)) by (intro; apply sv_const; assumption).
  rewrite <- (grid_length a i (steps a b i + 1)) at 2. generalize (grid a i (steps a b i + 1)). induction l as [|x l IH]; cbn; [reflexivity|]. rewrite IH. reflexivity.
Qed.

(* the 1 nm and 5 nm grids *)
Lemma steps1 : steps 360 780 1 = 420%nat.
Proof. apply steps_unique; [lra|]. rewrite S_INR, !INR_IZR_INZ. cbn. lra. Qed.
Lemma steps5 : steps 360 780 5 = 84%nat.
Proof. apply steps_unique; [lra|]. rewrite S_INR, !INR_IZR_INZ. cbn. lra. Qed.
Lemma count1 : countable 360 780 1. Proof. unfold countable. lra. Qed.
Lemma count5 : countable 360 780 5. Proof. unfold countable. lra. Qed.
Lemma e308 : astm_e308 = shape 360 780 1.
Proof. unfold astm_e308, shape. cbn. leq; clear; q2r; lra. Qed.
Definition every5 (l : list R) : list R := map (fun k => nth (5 * k) l 0) (seq 0 85).
Lemma resampled5 l : length l = 421%nat -> resampled 360 780 1 l 360 780 5 = every5 l.
Proof.
  intro L. apply nth_ext with (d := 0) (d' := 0); [rewrite resampled_length, steps5; unfold every5; rewrite map_length, seq_length; reflexivity|].
  intros k Hk. rewrite resampled_length, steps5 in Hk. rewrite resampled_nth by (rewrite steps5; lia). unfold every5. rewrite (nth_map_seq (fun k => nth (5 * k) l 0)) by lia.
  replace (360 + INR k * 5) with (360 + INR (5 * k) * 1) by (rewrite mult_INR; cbn [INR]; ring). apply av_knot; try lra; try lia.
  assert (INR (5 * k) <= INR 420) by (apply le_INR; lia). rewrite (INR_IZR_INZ 420) in H. change (IZR (Z.of_nat 420)) with 420 in H. lra.
Qed.
Lemma align5 debug fuel l : (84 <= fuel)%nat -> length l = 421%nat ->
  vspd_align debug fuel (uspd 360 780 1 l (Uniform (Fin 1))) (shape 360 780 5) = Ret (uspd 360 780 5 (every5 l) (Uniform (Fin 5))).
Proof.
  intros Hf L. rewrite align_uspd; [rewrite resampled5 by exact L; reflexivity| |rewrite steps5; exact Hf].
  unfold alignable. rewrite L, (INR_IZR_INZ 421), Rmax_left, Rmin_left by lra. cbn [Z.of_nat Pos.of_succ_nat Pos.succ].
  repeat apply conj; try lia; try lra; try apply count5; left; lra.
Qed.
Lemma align1 debug fuel l : (420 <= fuel)%nat -> length l = 421%nat ->
  vspd_align debug fuel (uspd 360 780 1 l (Uniform (Fin 1))) (shape 360 780 1) = Ret (uspd 360 780 1 l (Uniform (Fin 1))).
Proof.
  intros Hf L. rewrite align_uspd; [|apply on_own_grid; rewrite ?steps1; try lra; try lia; apply count1|rewrite steps1; exact Hf].
  rewrite resampled_own; rewrite ?steps1; try lra; try lia. reflexivity.
Qed.

(* sums over three zipped lists *)
Fixpoint dot3 (l m n : list R) : R := match l, m, n with a :: l, b :: m, c :: n => a * b * c + dot3 l m n | _, _, _ => 0 end.
Lemma sum3_fin l m n dw : sum3 (Fins l) (Fins m) (Fins n) (Fin dw) = Fin (dw * dot3 l m n).
Proof.
  unfold sum3. assert (E : forall l m n, map (fun '((s, i), c) => rmul (rmul (rmul s i) c) (Fin dw)) (combine (combine (Fins l) (Fins m)) (Fins n))
    = Fins (map (fun p => fst (fst p) * snd (fst p) * snd p * dw) (combine (combine l m) n))).
  { clear. induction l as [|a l IH]; intros [|b m] [|c n]; try reflexivity. unfold Fins in *. cbn [map combine]. f_equal. apply IH. }
  rewrite E, fsum_fin. f_equal. clear E. revert m n. induction l as [|a l IH]; intros [|b m] [|c n]; cbn; try ring. unfold rsum in IH. rewrite IH. ring.
Qed.
Lemma sum2_fin l m dw : fsum (map (fun '(i, y) => rmul (rmul i y) (Fin dw)) (combine (Fins l) (Fins m))) = Fin (dw * dotp l m).
Proof.
  assert (E : forall l m, map (fun '(i, y) => rmul (rmul i y) (Fin dw)) (combine (Fins l) (Fins m)) = Fins (map (fun p => fst p * snd p * dw) (combine l m))).
  { clear. induction l as [|a l IH]; intros [|b m]; try reflexivity. unfold Fins in *. cbn [map combine]. f_equal. apply IH. }
  rewrite E, fsum_fin. f_equal. clear E. revert m. induction l as [|a l IH]; intros [|b m]; cbn; try ring. unfold rsum in IH. rewrite IH. ring.
Qed.
Lemma uspd_vals s e h vals iv : v_values (uspd s e h vals iv) = Fins vals.
Proof. unfold v_values, uspd. cbn [v_samples]. rewrite vals_fin, even_vals. reflexivity. Qed.

(* integration over a grid on which everything has been put *)
Lemma integrate_fin debug fuel spd ill cm dw s i x y z a b : 0 < dw ->
  vspd_align debug fuel (x_bar cm) (shape a b dw) = Ret x -> vspd_align debug fuel (y_bar cm) (shape a b dw) = Ret y ->
  vspd_align debug fuel (z_bar cm) (shape a b dw) = Ret z -> vspd_align debug fuel ill (shape a b dw) = Ret i ->
  vspd_align debug fuel spd (shape a b dw) = Ret s ->
  forall sv iv xv yv zv, v_values s = Fins sv -> v_values i = Fins iv -> v_values x = Fins xv -> v_values y = Fins yv -> v_values z = Fins zv -> dotp iv yv <> 0 ->
  spd_to_xyz_integration debug fuel spd ill cm (shape a b dw)
  = Ret (Xyz (Fin (100 * dot3 sv iv xv / dotp iv yv)) (Fin (100 * dot3 sv iv yv / dotp iv yv)) (Fin (100 * dot3 sv iv zv / dotp iv yv))).
Proof.
  intros Hd Ex Ey Ez Ei Es sv iv xv yv zv Vs Vi Vx Vy Vz N. unfold spd_to_xyz_integration. rewrite Ex, Ey, Ez, Ei, Es. cbn [obind shape sh_interval].
  rewrite Vs, Vi, Vx, Vy, Vz, !sum3_fin, sum2_fin, x_litd, x_div by (apply Rmult_integral_contrapositive_currified; [lra|exact N]). rewrite !x_mul.
  f_equal. f_equal; f_equal; q2r; field; split; (exact N || lra).
Qed.
Lemma dot3_ones l : forall m n, (length m <= n)%nat -> dot3 (repeat 1 n) m l = dotp m l.
Proof.
  induction l as [|c l IH]; intros [|b m] [|n] H; cbn in *; try lia; try reflexivity. rewrite IH by lia. ring.
Qed.
End X.
