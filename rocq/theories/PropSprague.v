(* C51-C55: Sprague and linear interpolation *)
From Coq Require Import Reals ZArith QArith Qreals Lra Lia List Bool Sorted.
From Flocq Require Import Core.
From Verif Require Import Outcome RealOps MathModel ColorModel InterpModel VspdModel XReal SpecLin VspdProofs SpragueProofs.
Import ListNotations.
Open Scope R_scope.

Section P.
Context {K : XConst}.

(* interpolate a spectrum with evenly spaced samples: value vals_k at wavelength s + k h *)
Definition sprague_at (debug : bool) (s h : R) (vals : list R) (sh : spd_shape xr) (x : xr) : outcome xr :=
  let! sp := sprague_new (Vspd (FinSamps (even s h vals)) sh) in sprague_evaluate debug sp x.

Lemma sprague_at_in debug s h vals sh x : 0 < h -> (2 <= length vals)%nat ->
  s - 2 * h <= x < s + (INR (length vals) + 1) * h ->
  sprague_at debug s h vals sh (Fin x)
  = (let i := piece (s - 2 * h) h 2 (length vals) x in
     Ret (Fin (P0 (seg (ext vals) i) ((x - (s - 2 * h + INR i * h)) / h)))).
Proof. intros Hh L Hx. unfold sprague_at. rewrite sprague_new_even by exact L. cbn [obind]. apply evaluate_even; assumption. Qed.

Lemma piece_at a h lo hi x j : 0 < h -> a + INR j * h <= x < a + INR (S j) * h -> piece a h lo hi x = Nat.min (Nat.max j lo) hi.
Proof.
  intros Hh Hx. unfold piece. rewrite (floor_at a h Hh x (Z.of_nat j)).
  - rewrite Nat2Z.id. reflexivity.
  - rewrite plus_IZR, <- !INR_IZR_INZ. rewrite S_INR in Hx. exact Hx.
Qed.
Lemma piece_cases s h n x : 0 < h -> (2 <= n)%nat -> exists i, piece (s - 2 * h) h 2 n x = i /\ (2 <= i <= n)%nat
  /\ (s - 2 * h <= x -> INR i * h <= x - (s - 2 * h) < INR (S i) * h \/ (i = 2%nat /\ x < s) \/ (i = n /\ s + (INR n - 1) * h <= x)).
Proof.
  intros Hh L. exists (piece (s - 2 * h) h 2 n x). split; [reflexivity|]. split; [unfold piece; lia|]. intro Hx.
  pose proof (steps_spec (s - 2 * h) x h Hh Hx) as B. set (j := steps (s - 2 * h) x h) in *.
  rewrite (piece_at (s - 2 * h) h 2 n x j Hh B).
  destruct (le_lt_dec j 1) as [C|C].
  - right; left. split; [lia|]. rewrite S_INR in B. assert (INR j <= 1) by (change 1 with (INR 1); apply le_INR; exact C). nra.
  - destruct (le_lt_dec j n) as [D|D].
    + left. replace (Nat.min (Nat.max j 2) n) with j by lia. lra.
    + right; right. split; [lia|]. assert (INR n + 1 <= INR j) by (rewrite <- S_INR; apply le_INR; exact D). nra.
Qed.

(* ---- C51 ---- *)
Lemma seg_end r0 r1 r2 r3 r4 r5 : P0 (seg6 r0 r1 r2 r3 r4 r5) 1 = r3 /\ P0 (seg6 r0 r1 r2 r3 r4 r5) 0 = r2.
Proof. unfold seg6. cbn [P0]. split; field. Qed.
Theorem C51_through_samples debug s h (vals : list R) sh k : 0 < h -> (2 <= length vals)%nat -> (k < length vals)%nat ->
  sprague_at debug s h vals sh (Fin (s + INR k * h)) = Ret (Fin (nth k vals 0)).
Proof.
  intros Hh L Hk. assert (Bk : INR k <= INR (length vals)) by (apply le_INR; lia). pose proof (pos_INR k).
  rewrite sprague_at_in by (nra || assumption). cbv zeta.
  rewrite (piece_at (s - 2 * h) h 2 (length vals) _ (k + 2)); [|exact Hh|rewrite S_INR, plus_INR; cbn [INR]; nra].
  destruct (Nat.eq_dec (S k) (length vals)) as [E|E].
  - replace (Nat.min (Nat.max (k + 2) 2) (length vals)) with (k + 1)%nat by lia.
    rewrite plus_INR. cbn [INR]. replace ((s + INR k * h - (s - 2 * h + (INR k + 1) * h)) / h) with 1 by (field; lra).
    unfold seg. rewrite (proj1 (seg_end _ _ _ _ _ _)). replace (k + 1 + 1)%nat with (k + 2)%nat by lia. rewrite ext_nth by lia. reflexivity.
  - replace (Nat.min (Nat.max (k + 2) 2) (length vals)) with (k + 2)%nat by lia.
    rewrite plus_INR. cbn [INR]. replace ((s + INR k * h - (s - 2 * h + (INR k + (1 + 1)) * h)) / h) with 0 by (field; lra).
    unfold seg. rewrite (proj2 (seg_end _ _ _ _ _ _)), ext_nth by lia. reflexivity.
Qed.
Example C51_example debug sh : sprague_at debug 400 10 [1; 4; 2; 8; 5; 7] sh (Fin 430) = Ret (Fin 8).
Proof. replace 430 with (400 + INR 3 * 10) by (cbn; lra). rewrite C51_through_samples by (lra || cbn; lia). reflexivity. Qed.

(* ---- C52 ---- *)
Lemma index_low a h m x : 0 < h -> (6 <= m)%nat -> x < a ->
  sprague_index true (Fins (grid a h m)) (Fin x) = Panic /\ sprague_index false (Fins (grid a h m)) (Fin x) = Ret (m - 4)%nat.
Proof.
  intros Hh Hm Hx. unfold sprague_index.
  assert (P : position (fun t => rlt (Fin x) t) (Fins (grid a h m)) = Some 0%nat).
  { apply (position_some _ _ _ (Fin (a + INR 0 * h))).
    - unfold Fins. rewrite nth_error_map, grid_nth_error by lia. reflexivity.
    - rewrite x_lt. apply Rltb_true. cbn. lra.
    - intros k z Hk. lia. }
  rewrite P. cbn [unwrap obind]. unfold Fins. rewrite map_length, grid_length, usize_sub_ok by lia. split; reflexivity.
Qed.
Lemma index_high debug a h m x : 0 < h -> a + (INR m - 1) * h <= x -> sprague_index debug (Fins (grid a h m)) (Fin x) = Panic.
Proof.
  intros Hh Hx. unfold sprague_index. rewrite position_none; [reflexivity|].
  intros z Hz. unfold Fins, grid in Hz. rewrite map_map in Hz. apply in_map_iff in Hz. destruct Hz as (k & <- & Hk). apply in_seq in Hk.
  rewrite x_lt. apply Rltb_false. assert (INR k + 1 <= INR m) by (rewrite <- S_INR; apply le_INR; lia). nra.
Qed.
(* with overflow checks (debug builds) *)
Theorem C52_domain s h (vals : list R) sh x : 0 < h -> (2 <= length vals)%nat ->
  ((exists v, sprague_at true s h vals sh (Fin x) = Ret (Fin v)) <-> s - 2 * h <= x < s + (INR (length vals) + 1) * h)
  /\ (sprague_at true s h vals sh (Fin x) = Panic <-> ~ (s - 2 * h <= x < s + (INR (length vals) + 1) * h)).
Proof.
  intros Hh L.
  assert (A : s - 2 * h <= x < s + (INR (length vals) + 1) * h -> exists v, sprague_at true s h vals sh (Fin x) = Ret (Fin v)).
  { intro Hx. rewrite sprague_at_in by assumption. eexists. reflexivity. }
  assert (B : ~ (s - 2 * h <= x < s + (INR (length vals) + 1) * h) -> sprague_at true s h vals sh (Fin x) = Panic).
  { intro N. unfold sprague_at. rewrite sprague_new_even by exact L. cbn [obind]. unfold sprague_evaluate. cbn [sp_x sp_y].
    destruct (Rlt_dec x (s - 2 * h)) as [C|C].
    - rewrite (proj1 (index_low (s - 2 * h) h (length vals + 4) x Hh ltac:(lia) C)). reflexivity.
    - rewrite index_high; [reflexivity|exact Hh|]. rewrite plus_INR. cbn [INR].
      destruct (Rlt_dec x (s + (INR (length vals) + 1) * h)); [exfalso; apply N; lra|lra]. }
  split; split.
  - intros [v E]. destruct (Rle_dec (s - 2 * h) x) as [C|C]; [destruct (Rlt_dec x (s + (INR (length vals) + 1) * h)) as [D|D]; [split; assumption|]|];
      (rewrite B in E; [discriminate|lra]).
  - exact A.
  - intros E N. destruct (A N) as [v F]. congruence.
  - exact B.
Qed.
Theorem C52_nan debug s h (vals : list R) sh : (2 <= length vals)%nat -> sprague_at debug s h vals sh Bad = Panic.
Proof.
  intro L. unfold sprague_at. rewrite sprague_new_even by exact L. cbn [obind]. unfold sprague_evaluate, sprague_index. cbn [sp_x].
  rewrite position_none; [reflexivity|]. intros [z|] _; reflexivity.
Qed.
(* without overflow checks the index wraps around: left of the domain the polynomial of the last
   segment is evaluated instead of panicking *)
Theorem C52_release_refuted s h (vals : list R) sh x : 0 < h -> (2 <= length vals)%nat -> x < s - 2 * h ->
  sprague_at false s h vals sh (Fin x)
  = Ret (Fin (P0 (seg (ext vals) (length vals)) ((x - (s + (INR (length vals) - 2) * h)) / h))).
Proof.
  intros Hh L Hx. unfold sprague_at. rewrite sprague_new_even by exact L. cbn [obind]. unfold sprague_evaluate. cbn [sp_x sp_y].
  rewrite (proj2 (index_low (s - 2 * h) h (length vals + 4) x Hh ltac:(lia) Hx)). cbn [obind].
  replace (length vals + 4 - 4)%nat with (length vals) by lia.
  assert (N : forall k, (k < length vals + 4)%nat -> nth_error (Fins (grid (s - 2 * h) h (length vals + 4))) k = Some (Fin (s - 2 * h + INR k * h))).
  { intros k Hk. unfold Fins. rewrite nth_error_map, grid_nth_error by exact Hk. reflexivity. }
  rewrite (oindex_some _ _ _ (N (length vals) ltac:(lia))), (oindex_some _ _ _ (N (length vals + 1)%nat ltac:(lia))). cbn [obind].
  rewrite coeff_a_fin by (rewrite ?ext_length; lia). cbn [obind]. rewrite !x_sub, plus_INR. cbn [INR].
  replace (s - 2 * h + (INR (length vals) + 1) * h - (s - 2 * h + INR (length vals) * h)) with h by ring. rewrite x_div by lra.
  replace (s - 2 * h + INR (length vals) * h) with (s + (INR (length vals) - 2) * h) by ring.
  unfold seg, seg6, Fins. cbn [map]. set (t := (x - _) / h).
  rewrite x_powi2, x_powi3, x_powi4, x_powi5. xs. cbn [P0]. do 2 f_equal. ring.
Qed.
Example C52_example sh : sprague_at true 400 10 [1; 4; 2; 8; 5; 7] sh (Fin 379) = Panic
  /\ (exists v, sprague_at true 400 10 [1; 4; 2; 8; 5; 7] sh (Fin 380) = Ret (Fin v))
  /\ sprague_at true 400 10 [1; 4; 2; 8; 5; 7] sh (Fin 470) = Panic.
Proof. repeat apply conj; [apply C52_domain|apply C52_domain|apply C52_domain]; cbn; try lia; try lra. Qed.

(* ---- C53 ---- *)
Lemma seg_C2 r0 r1 r2 r3 r4 r5 r6 :
  P0 (seg6 r0 r1 r2 r3 r4 r5) 1 = P0 (seg6 r1 r2 r3 r4 r5 r6) 0
  /\ P1 (seg6 r0 r1 r2 r3 r4 r5) 1 = P1 (seg6 r1 r2 r3 r4 r5 r6) 0
  /\ P2 (seg6 r0 r1 r2 r3 r4 r5) 1 = P2 (seg6 r1 r2 r3 r4 r5 r6) 0.
Proof. unfold seg6. cbn [P0 P1 P2]. repeat apply conj; field. Qed.

(* the interpolant is one function with two continuous derivatives *)
Theorem C53_twice_differentiable s h (vals : list R) : 0 < h -> (2 <= length vals)%nat ->
  exists f f1 f2 : R -> R,
    (forall debug sh x, s - 2 * h <= x < s + (INR (length vals) + 1) * h -> sprague_at debug s h vals sh (Fin x) = Ret (Fin (f x)))
    /\ (forall x, derivable_pt_lim f x (f1 x)) /\ (forall x, derivable_pt_lim f1 x (f2 x)) /\ (forall x, continuity_pt f2 x).
Proof.
  intros Hh L. set (a := s - 2 * h). set (n := length vals). set (y := ext vals).
  set (F := fun i x => P0 (seg y i) ((x - (a + INR i * h)) / h)).
  set (G := fun i x => P1 (seg y i) ((x - (a + INR i * h)) / h) / h).
  set (J := fun i x => P2 (seg y i) ((x - (a + INR i * h)) / h) / h / h).
  assert (T : forall i, (a + INR (S i) * h - (a + INR i * h)) / h = 1 /\ (a + INR (S i) * h - (a + INR (S i) * h)) / h = 0).
  { intro i. rewrite S_INR. split; field; lra. }
  assert (E : forall i, (2 <= i)%nat -> P0 (seg y i) 1 = P0 (seg y (S i)) 0 /\ P1 (seg y i) 1 = P1 (seg y (S i)) 0 /\ P2 (seg y i) 1 = P2 (seg y (S i)) 0).
  { intros i Hi. unfold seg. replace (S i - 2)%nat with (i - 1)%nat by lia. replace (S i - 1)%nat with i by lia.
    replace (S i) with (i + 1)%nat by lia. replace (i + 1 + 1)%nat with (i + 2)%nat by lia. replace (i + 1 + 2)%nat with (i + 3)%nat by lia.
    apply seg_C2. }
  assert (FF : fits a h 2 n F /\ fits a h 2 n G /\ fits a h 2 n J).
  { repeat apply conj; intros i Hi; destruct (E i ltac:(lia)) as (E0 & E1 & E2); destruct (T i) as (T1 & T2); unfold F, G, J; rewrite T1, T2; congruence. }
  destruct FF as (FF & FG & FJ).
  exists (pw a h 2 n F), (pw a h 2 n G), (pw a h 2 n J). repeat apply conj.
  - intros debug sh x Hx. rewrite sprague_at_in by assumption. reflexivity.
  - apply pw_deriv; try assumption. intros i x. apply affine_deriv; [lra|]. apply P0_deriv.
  - apply pw_deriv; try assumption. intros i x. unfold G, J.
    apply (derivable_pt_lim_ext (fun x => P1 (seg y i) ((x - (a + INR i * h)) / h) * / h)); [reflexivity|].
    replace (P2 (seg y i) ((x - (a + INR i * h)) / h) / h / h) with (P2 (seg y i) ((x - (a + INR i * h)) / h) / h * / h + P1 (seg y i) ((x - (a + INR i * h)) / h) * 0) by (field; lra).
    apply (derivable_pt_lim_mult (fun x => P1 (seg y i) ((x - (a + INR i * h)) / h)) (fun _ => / h)); [|apply derivable_pt_lim_const].
    apply (affine_deriv (P1 (seg y i))); [lra|]. apply P1_deriv.
  - apply pw_cont; try assumption. intros i x. unfold J, Rdiv.
    apply (continuity_pt_mult (fun x => P2 (seg y i) ((x - (a + INR i * h)) * / h) * / h) (fun _ => / h)); [|apply continuity_pt_const; intros ? ?; reflexivity].
    apply (continuity_pt_mult (fun x => P2 (seg y i) ((x - (a + INR i * h)) * / h)) (fun _ => / h)); [|apply continuity_pt_const; intros ? ?; reflexivity].
    apply (affine_cont (P2 (seg y i))); [lra|]. apply P2_cont.
Qed.

(* ---- C54 ---- *)
Definition lin (p q x : R) : R := p + q * x.
Lemma grid_map_rev (f : R -> R) s h n : rev (map f (grid s h n)) = map f (grid (s + (INR n - 1) * h) (- h) n).
Proof.
  rewrite <- map_rev. f_equal. revert s. induction n as [|n IH]; intro s; [reflexivity|].
  rewrite grid_S. cbn [rev]. rewrite IH, S_INR. replace (S n) with (n + 1)%nat by lia. rewrite grid_app. f_equal.
  - f_equal. ring.
  - unfold grid. cbn [seq map INR]. f_equal. ring.
Qed.
Lemma bound_lin p q s h n : (6 <= n)%nat ->
  dotp C0 (map (lin p q) (grid s h n)) / 209 = lin p q (s - 2 * h) /\ dotp C1 (map (lin p q) (grid s h n)) / 209 = lin p q (s - h).
Proof.
  intro L. replace n with (6 + (n - 6))%nat by lia. rewrite grid_app, map_app. generalize (map (lin p q) (grid (s + INR 6 * h) h (n - 6))). intro g.
  unfold grid. cbn [seq map app INR]. unfold C0, C1, lin. cbn [dotp]. split; destruct g; cbn [dotp]; field.
Qed.
Lemma ext_lin p q s h n : (6 <= n)%nat -> ext (map (lin p q) (grid s h n)) = map (lin p q) (grid (s - 2 * h) h (n + 4)).
Proof.
  intro L. unfold ext. rewrite grid_map_rev.
  destruct (bound_lin p q s h n L) as [A B]. destruct (bound_lin p q (s + (INR n - 1) * h) (- h) n L) as [C D].
  rewrite A, B, C, D. replace (n + 4)%nat with (S (S (n + 2))) by lia. rewrite !grid_S, grid_app. cbn [map]. rewrite map_app.
  replace (s - 2 * h + h + h) with s by ring. replace (s - 2 * h + h) with (s - h) by ring. cbn [app]. do 3 f_equal.
  unfold grid. cbn [seq map INR]. unfold lin. leq; ring.
Qed.
Theorem C54_linear debug s h n sh p q x : 0 < h -> (6 <= n)%nat ->
  s - 2 * h <= x < s + (INR n + 1) * h ->
  sprague_at debug s h (map (fun x => p + q * x) (grid s h n)) sh (Fin x) = Ret (Fin (p + q * x)).
Proof.
  intros Hh L Hx. change (fun x => p + q * x) with (lin p q).
  assert (Ln : length (map (lin p q) (grid s h n)) = n) by (rewrite map_length; apply grid_length).
  rewrite sprague_at_in by (rewrite ?Ln; assumption || lia). cbv zeta. rewrite Ln, ext_lin by exact L.
  set (i := piece _ _ _ _ _). assert (Hi : (2 <= i <= n)%nat) by (unfold i, piece; lia).
  do 2 f_equal. unfold seg.
  assert (N : forall k, (k < n + 4)%nat -> nth k (map (lin p q) (grid (s - 2 * h) h (n + 4))) 0 = p + q * (s - 2 * h + INR k * h)).
  { intros k Hk. rewrite (nth_indep _ 0 (lin p q 0)) by (rewrite map_length, grid_length; exact Hk). rewrite map_nth, grid_nth by exact Hk. reflexivity. }
  rewrite !N by lia. rewrite !minus_INR, !plus_INR by lia. cbn [INR]. unfold seg6. cbn [P0].
  generalize (INR i). intro u. field. lra.
Qed.
Definition quartic (c0 c1 c2 c3 c4 x : R) : R := c0 + c1 * x + c2 * x ^ 2 + c3 * x ^ 3 + c4 * x ^ 4.
Lemma seg_quartic c0 c1 c2 c3 c4 u h t : h <> 0 ->
  P0 (seg6 (quartic c0 c1 c2 c3 c4 (u - 2 * h)) (quartic c0 c1 c2 c3 c4 (u - h)) (quartic c0 c1 c2 c3 c4 u)
       (quartic c0 c1 c2 c3 c4 (u + h)) (quartic c0 c1 c2 c3 c4 (u + 2 * h)) (quartic c0 c1 c2 c3 c4 (u + 3 * h))) t
  = quartic c0 c1 c2 c3 c4 (u + t * h).
Proof. intro Hh. unfold seg6, quartic. cbn [P0]. field. Qed.
(* away from the two outermost segments on each side *)
Theorem C54_quartic debug s h n sh c0 c1 c2 c3 c4 x : 0 < h -> (6 <= n)%nat ->
  s + 2 * h <= x <= s + (INR n - 3) * h ->
  sprague_at debug s h (map (quartic c0 c1 c2 c3 c4) (grid s h n)) sh (Fin x) = Ret (Fin (quartic c0 c1 c2 c3 c4 x)).
Proof.
  intros Hh L Hx.
  assert (Ln : length (map (quartic c0 c1 c2 c3 c4) (grid s h n)) = n) by (rewrite map_length; apply grid_length).
  set (vals := map _ _) in *.
  assert (V : forall k, (k < n)%nat -> nth k vals 0 = quartic c0 c1 c2 c3 c4 (s + INR k * h)).
  { intros k Hk. unfold vals. rewrite (nth_indep _ 0 (quartic c0 c1 c2 c3 c4 0)) by (rewrite map_length, grid_length; exact Hk). rewrite map_nth, grid_nth by exact Hk. reflexivity. }
  destruct (Req_dec x (s + (INR n - 3) * h)) as [E|E].
  - replace (INR n - 3) with (INR (n - 3)) in E by (rewrite minus_INR by lia; reflexivity || cbn; lra).
    rewrite E, C51_through_samples by (rewrite ?Ln; assumption || lia). rewrite V by lia. reflexivity.
  - rewrite sprague_at_in by (rewrite ?Ln; assumption || lia || nra). cbv zeta. rewrite Ln.
    destruct (steps_spec s x h Hh ltac:(lra)) as [A B]. set (j := steps s x h) in *.
    assert (J2 : (2 <= j)%nat). { apply INR_le. cbn [INR]. destruct (Rle_dec 2 (INR j)); [lra|]. exfalso.
      assert (j < 2)%nat by (apply INR_lt; cbn [INR]; lra). assert (INR (S j) <= 2) by (change 2 with (INR 2); apply le_INR; lia). nra. }
    assert (J3 : (j + 3 < n)%nat). { apply INR_lt. rewrite plus_INR. cbn [INR]. nra. }
    rewrite (piece_at (s - 2 * h) h 2 n x (j + 2) Hh) by (rewrite S_INR, plus_INR; rewrite S_INR in B; cbn [INR]; nra).
    replace (Nat.min (Nat.max (j + 2) 2) n) with (j + 2)%nat by lia.
    do 2 f_equal. unfold seg.
    replace (j + 2 - 2)%nat with (j - 2 + 2)%nat by lia. replace (j + 2 - 1)%nat with (j - 1 + 2)%nat by lia.
    replace (j + 2 + 1)%nat with (j + 1 + 2)%nat by lia. replace (j + 2 + 2)%nat with (j + 2 + 2)%nat by lia. replace (j + 2 + 3)%nat with (j + 3 + 2)%nat by lia.
    rewrite !ext_nth by lia. rewrite !V by lia. rewrite !minus_INR, !plus_INR by lia. cbn [INR].
    replace (s + (INR j - (1 + 1)) * h) with (s + INR j * h - 2 * h) by ring. replace (s + (INR j - 1) * h) with (s + INR j * h - h) by ring.
    replace (s + (INR j + 1) * h) with (s + INR j * h + h) by ring. replace (s + (INR j + (1 + 1)) * h) with (s + INR j * h + 2 * h) by ring.
    replace (s + (INR j + (1 + 1 + 1)) * h) with (s + INR j * h + 3 * h) by ring.
    rewrite seg_quartic by lra. f_equal. field. lra.
Qed.
(* with fewer than six samples the boundary formula drops terms: a constant spectrum of five samples is not
   reproduced half way between the first two *)
Theorem C54_short_spectrum_refuted debug sh : exists v, sprague_at debug 0 1 [209; 209; 209; 209; 209] sh (Fin (1/2)) = Ret (Fin v) /\ v <> 209.
Proof.
  rewrite sprague_at_in by (cbn; lra || lia). cbv zeta. eexists. split; [reflexivity|].
  rewrite (piece_at (0 - 2 * 1) 1 2 _ (1/2) 2) by (cbn; lra). cbn [Nat.min Nat.max length].
  unfold seg, ext, C0, C1. cbn [Nat.sub Nat.add app nth dotp rev INR]. unfold seg6. cbn [P0]. lra.
Qed.
Example C54_example debug sh : sprague_at debug 400 10 [0; 1; 2; 3; 4; 5; 6] sh (Fin 413) = Ret (Fin 1.3).
Proof.
  assert (E : [0; 1; 2; 3; 4; 5; 6] = map (fun x => -40 + 0.1 * x) (grid 400 10 7)).
  { unfold grid. cbn [seq map INR]. leq; lra. }
  rewrite E, C54_linear by (cbn [INR]; lra || lia). do 2 f_equal. lra.
Qed.

(* ---- C55 ---- *)
Definition strictly (l : list (R * R)) : Prop := StronglySorted (fun a b => fst a < fst b) l.
Lemma strictly_nth l i j : strictly l -> (i < j)%nat -> (j < length l)%nat -> fst (nth i l (0, 0)) < fst (nth j l (0, 0)).
Proof.
  intro H. revert i j. induction H as [|a l S IH F]; intros i j Hij Hj; [cbn in Hj; lia|].
  destruct j as [|j]; [lia|]. cbn in Hj. destruct i as [|i].
  - cbn [nth]. rewrite Forall_forall in F. apply F. apply nth_In. lia.
  - cbn [nth]. apply IH; lia.
Qed.
Lemma nthS l i : (i < length l)%nat -> nth_error (FinSamps l) i = Some (FinSamp (nth i l (0, 0))).
Proof. intro H. unfold FinSamps. rewrite nth_error_map, (nth_error_nth' l (0, 0) H). reflexivity. Qed.
Lemma linear_between l sh i x : strictly l -> (S i < length l)%nat ->
  fst (nth i l (0, 0)) <= x < fst (nth (S i) l (0, 0)) ->
  linear_evaluate (Vspd (FinSamps l) sh) (Fin x)
  = (let d := (x - fst (nth i l (0, 0))) / (fst (nth (S i) l (0, 0)) - fst (nth i l (0, 0))) in
     Ret (Fin ((1 - d) * snd (nth i l (0, 0)) + d * snd (nth (S i) l (0, 0))))).
Proof.
  intros S L Hx. unfold linear_evaluate, v_first, v_last. cbn [v_samples].
  assert (Hl : l <> []) by (intros ->; cbn in L; lia).
  assert (F : first_opt (FinSamps l) = Some (FinSamp (nth 0 l (0, 0)))) by (destruct l; [contradiction|reflexivity]).
  assert (La : last_opt (FinSamps l) = Some (FinSamp (nth (length l - 1) l (0, 0)))).
  { unfold FinSamps. rewrite last_opt_map, (last_opt_nth l (0, 0) Hl). reflexivity. }
  rewrite F, La. cbn [unwrap obind]. unfold FinSamp at 1 2 3 4. cbn [s_nm s_v]. rewrite x_le.
  assert (Z : fst (nth 0 l (0, 0)) <= fst (nth i l (0, 0))) by (destruct i; [lra|left; apply strictly_nth; [exact S|lia|lia]]).
  destruct (Rleb_spec x (fst (nth 0 l (0, 0)))) as [C|C].
  { assert (I0 : i = 0%nat). { destruct i; [reflexivity|]. exfalso. assert (fst (nth 0 l (0, 0)) < fst (nth (Datatypes.S i) l (0, 0))) by (apply strictly_nth; [exact S|lia|lia]). lra. }
    subst i. cbv zeta. assert (x = fst (nth 0 l (0, 0))) as -> by lra. do 2 f_equal.
    assert (fst (nth 0 l (0, 0)) < fst (nth 1 l (0, 0))) by (apply strictly_nth; [exact S|lia|lia]). field. lra. }
  rewrite x_le.
  assert (Y : fst (nth (Datatypes.S i) l (0, 0)) <= fst (nth (length l - 1) l (0, 0))).
  { destruct (Nat.eq_dec (Datatypes.S i) (length l - 1)) as [->|N]; [lra|]. left. apply strictly_nth; [exact S|lia|lia]. }
  rewrite (Rleb_false (fst (nth (length l - 1) l (0, 0))) x) by lra.
  assert (P : position (fun s => rlt (Fin x) (s_nm s)) (FinSamps l) = Some (Datatypes.S i)).
  { apply (position_some _ _ _ (FinSamp (nth (Datatypes.S i) l (0, 0)))).
    - apply nthS. exact L.
    - cbn [FinSamp s_nm]. rewrite x_lt. apply Rltb_true. lra.
    - intros j z Hj Hz. rewrite nthS in Hz by lia. injection Hz as <-. cbn [FinSamp s_nm]. rewrite x_lt. apply Rltb_false.
      destruct (Nat.eq_dec j i) as [->|N]; [lra|]. assert (fst (nth j l (0, 0)) < fst (nth i l (0, 0))) by (apply strictly_nth; [exact S|lia|lia]). lra. }
  rewrite P. cbn [unwrap obind]. rewrite usize_sub_ok by lia. cbn [obind]. replace (Datatypes.S i - 1)%nat with i by lia.
  rewrite (oindex_some _ _ _ (nthS l i ltac:(lia))). replace (i + 1)%nat with (Datatypes.S i) by lia. rewrite (oindex_some _ _ _ (nthS l (Datatypes.S i) L)).
  cbn [obind FinSamp s_nm s_v]. assert (D : fst (nth i l (0, 0)) < fst (nth (Datatypes.S i) l (0, 0))) by lra.
  cbv zeta. xs. rewrite x_div by lra. xs. replace (Q2R 1.0) with 1 by (clear; q2r; lra). reflexivity.
Qed.
Lemma linear_outside l sh x : l <> [] ->
  (x <= fst (nth 0 l (0, 0)) -> linear_evaluate (Vspd (FinSamps l) sh) (Fin x) = Ret (Fin (snd (nth 0 l (0, 0)))))
  /\ (fst (nth 0 l (0, 0)) < x -> fst (nth (length l - 1) l (0, 0)) <= x -> linear_evaluate (Vspd (FinSamps l) sh) (Fin x) = Ret (Fin (snd (nth (length l - 1) l (0, 0))))).
Proof.
  intro Hl. unfold linear_evaluate, v_first, v_last. cbn [v_samples].
  assert (F : first_opt (FinSamps l) = Some (FinSamp (nth 0 l (0, 0)))) by (destruct l; [contradiction|reflexivity]).
  assert (La : last_opt (FinSamps l) = Some (FinSamp (nth (length l - 1) l (0, 0)))).
  { unfold FinSamps. rewrite last_opt_map, (last_opt_nth l (0, 0) Hl). reflexivity. }
  rewrite F, La. cbn [unwrap obind FinSamp s_nm s_v fst snd]. rewrite !x_le. split.
  - intro C. rewrite Rleb_true by exact C. reflexivity.
  - intros C D. rewrite Rleb_false by exact C. rewrite Rleb_true by exact D. reflexivity.
Qed.
(* the largest sample not right of x *)
Lemma find_segment l x : l <> [] -> fst (nth 0 l (0, 0)) <= x -> x < fst (nth (length l - 1) l (0, 0)) ->
  exists i, (S i < length l)%nat /\ fst (nth i l (0, 0)) <= x < fst (nth (S i) l (0, 0)).
Proof.
  induction l as [|p l IH]; intros Hl A B; [contradiction|].
  destruct l as [|q l]; [cbn in A, B; lra|]. destruct (Rlt_dec x (fst q)) as [C|C].
  - exists 0%nat. cbn. split; [lia|]. split; [exact A|exact C].
  - destruct (IH ltac:(discriminate)) as (i & I1 & I2).
    + cbn. lra.
    + cbn [length] in B |- *. replace (S (S (length l)) - 1)%nat with (S (S (length l) - 1)) in B by lia. exact B.
    + exists (S i). cbn [length nth] in *. split; [lia|exact I2].
Qed.

Theorem C55_linear_through_samples l sh k : strictly l -> (k < length l)%nat ->
  linear_evaluate (Vspd (FinSamps l) sh) (Fin (fst (nth k l (0, 0)))) = Ret (Fin (snd (nth k l (0, 0)))).
Proof.
  intros S L. assert (Hl : l <> []) by (intros ->; cbn in L; lia).
  destruct (Nat.eq_dec k 0) as [->|N0]; [apply linear_outside; [exact Hl|lra]|].
  destruct (Nat.eq_dec k (length l - 1)) as [E|N].
  - subst k. apply linear_outside; [exact Hl| |lra]. apply strictly_nth; [exact S|lia|lia].
  - assert (D : fst (nth k l (0, 0)) < fst (nth (Datatypes.S k) l (0, 0))) by (apply strictly_nth; [exact S|lia|lia]).
    rewrite (linear_between l sh k) by (assumption || lia || lra). cbv zeta. do 2 f_equal. field. lra.
Qed.
Theorem C55_linear_between_neighbours l sh k x : strictly l -> (S k < length l)%nat ->
  fst (nth k l (0, 0)) <= x <= fst (nth (S k) l (0, 0)) ->
  exists v, linear_evaluate (Vspd (FinSamps l) sh) (Fin x) = Ret (Fin v)
    /\ Rmin (snd (nth k l (0, 0))) (snd (nth (S k) l (0, 0))) <= v <= Rmax (snd (nth k l (0, 0))) (snd (nth (S k) l (0, 0)))
    /\ (v - snd (nth k l (0, 0))) * (fst (nth (S k) l (0, 0)) - fst (nth k l (0, 0)))
       = (snd (nth (S k) l (0, 0)) - snd (nth k l (0, 0))) * (x - fst (nth k l (0, 0))).
Proof.
  intros S L Hx. destruct (Req_dec x (fst (nth (Datatypes.S k) l (0, 0)))) as [E|N].
  - exists (snd (nth (Datatypes.S k) l (0, 0))). rewrite E, C55_linear_through_samples by assumption.
    split; [reflexivity|]. split; [split; [apply Rmin_r|apply Rmax_r]|ring].
  - rewrite (linear_between l sh k) by (assumption || lra). cbv zeta. eexists. split; [reflexivity|].
    assert (D : fst (nth k l (0, 0)) < fst (nth (Datatypes.S k) l (0, 0))) by lra.
    set (a := snd (nth k l (0, 0))). set (b := snd (nth (Datatypes.S k) l (0, 0))).
    set (u := fst (nth k l (0, 0))) in *. set (w := fst (nth (Datatypes.S k) l (0, 0))) in *.
    assert (T : 0 <= (x - u) / (w - u) <= 1).
    { assert (Q : (x - u) / (w - u) * (w - u) = x - u) by (field; lra). split; nra. }
    set (t := (x - u) / (w - u)) in *. split; [|unfold t; field; lra].
    pose proof (Rmin_l a b). pose proof (Rmin_r a b). pose proof (Rmax_l a b). pose proof (Rmax_r a b). split; nra.
Qed.
(* outside the samples the end values go on; a value is always returned for a real wavelength, NaN panics *)
Theorem C55_linear_total l sh x : strictly l -> l <> [] ->
  (x <= fst (nth 0 l (0, 0)) -> linear_evaluate (Vspd (FinSamps l) sh) (Fin x) = Ret (Fin (snd (nth 0 l (0, 0)))))
  /\ (fst (nth (length l - 1) l (0, 0)) <= x -> linear_evaluate (Vspd (FinSamps l) sh) (Fin x) = Ret (Fin (snd (nth (length l - 1) l (0, 0)))))
  /\ (exists v, linear_evaluate (Vspd (FinSamps l) sh) (Fin x) = Ret (Fin v))
  /\ linear_evaluate (Vspd (FinSamps l) sh) Bad = Panic.
Proof.
  intros S Hl. assert (Ln : (0 < length l)%nat) by (destruct l; [contradiction|cbn; lia]).
  destruct (linear_outside l sh x Hl) as [A B].
  assert (C : fst (nth (length l - 1) l (0, 0)) <= x -> linear_evaluate (Vspd (FinSamps l) sh) (Fin x) = Ret (Fin (snd (nth (length l - 1) l (0, 0))))).
  { intro H. destruct (Rle_dec x (fst (nth 0 l (0, 0)))) as [D|D]; [|apply B; lra].
    destruct (Nat.eq_dec (length l - 1) 0) as [E|E]; [rewrite E in *; apply A, D|].
    assert (fst (nth 0 l (0, 0)) < fst (nth (length l - 1) l (0, 0))) by (apply strictly_nth; [exact S|lia|lia]). lra. }
  split; [exact A|]. split; [exact C|]. split.
  - destruct (Rle_dec x (fst (nth 0 l (0, 0)))) as [D|D]; [eexists; apply A, D|].
    destruct (Rle_dec (fst (nth (length l - 1) l (0, 0))) x) as [E|E]; [eexists; apply C, E|].
    destruct (find_segment l x Hl ltac:(lra) ltac:(lra)) as (i & I1 & I2). rewrite (linear_between l sh i) by assumption. eexists. reflexivity.
  - unfold linear_evaluate, v_first, v_last. cbn [v_samples].
    destruct (last_opt_some (FinSamps l)) as [p Hp]; [destruct l; [contradiction|discriminate]|]. rewrite Hp. destruct l as [|q l]; [contradiction|].
    cbn [FinSamps map first_opt unwrap obind]. change (rle Bad (s_nm (FinSamp q))) with false. cbv iota. 
    change (rle (s_nm p) Bad) with (xcmp Rleb (s_nm p) Bad). replace (xcmp Rleb (s_nm p) Bad) with false by (destruct (s_nm p); reflexivity). cbv iota.
    rewrite position_none; [reflexivity|]. intros z _. reflexivity.
Qed.
Example C55_example : let l := [(400, 1); (410, 3); (440, 0)] in
  linear_evaluate (Vspd (FinSamps l) (shape 400 440 10)) (Fin 405) = Ret (Fin 2)
  /\ linear_evaluate (Vspd (FinSamps l) (shape 400 440 10)) (Fin 420) = Ret (Fin 2)
  /\ linear_evaluate (Vspd (FinSamps l) (shape 400 440 10)) (Fin 500) = Ret (Fin 0).
Proof.
  intro l. assert (S : strictly l) by (unfold l; repeat constructor; cbn; lra). repeat apply conj.
  - rewrite (linear_between l _ 0) by (assumption || (cbn; lia) || (cbn; lra)). cbn. do 2 f_equal. lra.
  - rewrite (linear_between l _ 1) by (assumption || (cbn; lia) || (cbn; lra)). cbn. do 2 f_equal. lra.
  - destruct (C55_linear_total l (shape 400 440 10) 500 S ltac:(discriminate)) as (_ & A & _). rewrite A by (cbn; lra). reflexivity.
Qed.
End P.
