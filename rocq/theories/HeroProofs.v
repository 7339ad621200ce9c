(* Lemmas on hero wavelength sampling (examples/hero_wavelength_sampling.rs) in exact arithmetic *)
From Coq Require Import Reals ZArith QArith Qreals Lra Lia List Bool Sorted.
From Flocq Require Import Core.
From Verif Require Import Outcome RealOps MathModel ColorModel InterpModel VspdModel UpliftModel HeroModel XReal SpecLin VspdProofs PropShape SpragueProofs PropSprague AlignProofs PropAlign PropHero StratProofs.
Import ListNotations.
Open Scope R_scope.

Definition wrap (l : R) : R := if Rle_dec 780 l then l - 420 else l.
(* the wavelengths of sample i *)
Definition lams (n : nat) (r : nat -> R) (i : nat) : list R :=
  let h := 360 + (INR i + r i) / INR n * 420 in map wrap [h; h + 105; h + 210; h + 315].
Definition hsum (f : R -> R) (n : nat) (r : nat -> R) : R := sum_of (fun i => sum_of f (lams n r i)) (seq 0 n).

Lemma wrap_cell n m i k r : (n = 4 * m)%nat -> (0 < m)%nat -> (i < n)%nat -> (k < 4)%nat -> 0 <= r < 1 ->
  let l := wrap (360 + (INR i + r) / INR n * 420 + 105 * INR k) in
  knot 360 780 n ((i + k * m) mod n) <= l < knot 360 780 n (S ((i + k * m) mod n)).
Proof.
  intros En Hm Hi Hk Hr. cbv zeta. assert (N : 0 < INR n) by (apply lt_0_INR; lia). assert (M : 0 < INR m) by (apply lt_0_INR; lia).
  assert (NM : INR n = 4 * INR m) by (rewrite En, mult_INR; cbn [INR]; ring).
  assert (KN : forall j, knot 360 780 n j = 360 + 420 * INR j / INR n) by (intro j; unfold knot; field; lra).
  assert (E : 360 + (INR i + r) / INR n * 420 + 105 * INR k = 360 + 420 * (INR (i + k * m) + r) / INR n) by (rewrite plus_INR, mult_INR, NM; field; lra).
  rewrite E. set (j := (i + k * m)%nat) in *. rewrite !KN.
  assert (D : forall x y, x <= y -> 420 * x / INR n <= 420 * y / INR n) by (intros x y H; unfold Rdiv; apply Rmult_le_compat_r; [apply Rlt_le, Rinv_0_lt_compat, N|lra]).
  assert (D' : forall x y, x < y -> 420 * x / INR n < 420 * y / INR n) by (intros x y H; unfold Rdiv; apply Rmult_lt_compat_r; [apply Rinv_0_lt_compat, N|lra]).
  assert (J : (j < n + n)%nat) by (unfold j; nia). assert (NN : 420 * INR n / INR n = 420) by (field; lra).
  unfold wrap. destruct (le_lt_dec n j) as [G|G].
  - assert (jn : INR n <= INR j) by (apply le_INR, G). pose proof (D (INR n) (INR j + r) ltac:(lra)). destruct (Rle_dec 780 _) as [_|B]; [|lra].
    replace (j mod n)%nat with (j - n)%nat by (rewrite <- (Nat.mod_small (j - n) n) by lia; replace j with ((j - n) + 1 * n)%nat at 2 by lia; rewrite Nat.mod_add by lia; reflexivity).
    rewrite S_INR, minus_INR by exact G. pose proof (D (INR j) (INR j + r) ltac:(lra)). pose proof (D' (INR j + r) (INR j + 1) ltac:(lra)).
    replace (420 * (INR j - INR n) / INR n) with (420 * INR j / INR n - 420) by (field; lra). replace (420 * (INR j - INR n + 1) / INR n) with (420 * (INR j + 1) / INR n - 420) by (field; lra). lra.
  - assert (jn : INR j + 1 <= INR n) by (rewrite <- S_INR; apply le_INR, G). pose proof (D' (INR j + r) (INR n) ltac:(lra)). destruct (Rle_dec 780 _) as [B|_]; [lra|].
    rewrite Nat.mod_small by exact G. rewrite S_INR. pose proof (D (INR j) (INR j + r) ltac:(lra)). pose proof (D' (INR j + r) (INR j + 1) ltac:(lra)). lra.
Qed.
Lemma lams_in n m r i : (n = 4 * m)%nat -> (0 < m)%nat -> (i < n)%nat -> 0 <= r i < 1 -> forall l, In l (lams n r i) -> 360 <= l < 780.
Proof.
  intros En Hm Hi Hr l Hl. assert (Q : exists k, (k < 4)%nat /\ l = wrap (360 + (INR i + r i) / INR n * 420 + 105 * INR k)).
  { cbn [lams map] in Hl. destruct Hl as [<-|[<-|[<-|[<-|[]]]]]; [exists 0%nat|exists 1%nat|exists 2%nat|exists 3%nat]; (split; [lia|f_equal; cbn [INR]; lra]). }
  destruct Q as (k & Hk & ->). pose proof (wrap_cell n m i k (r i) En Hm Hi Hk Hr) as C. cbv zeta in C.
  assert (B : ((i + k * m) mod n < n)%nat) by (apply Nat.mod_upper_bound; lia).
  pose proof (knot_in 360 780 n ltac:(lra) ltac:(lia) ((i + k * m) mod n) ltac:(lia)). pose proof (knot_in 360 780 n ltac:(lra) ltac:(lia) (S ((i + k * m) mod n)) ltac:(lia)). lra.
Qed.
Theorem hsum_close f L v n m r : (n = 4 * m)%nat -> (0 < m)%nat -> (forall i, (i < n)%nat -> 0 <= r i < 1) ->
  0 <= L -> lipschitz f 360 780 L -> integral f 360 780 v -> Rabs (hsum f n r / INR n - 4 * v / 420) <= 1680 * L / INR n.
Proof.
  intros En Hm Hr L0 HL HI. set (w := fun k i => wrap (360 + (INR i + r i) / INR n * 420 + 105 * INR k)).
  assert (N : 0 < INR n) by (apply lt_0_INR; lia).
  assert (E : hsum f n r = sum_of (fun i => f (w 0%nat i)) (seq 0 n) + sum_of (fun i => f (w 1%nat i)) (seq 0 n) + sum_of (fun i => f (w 2%nat i)) (seq 0 n) + sum_of (fun i => f (w 3%nat i)) (seq 0 n)).
  { unfold hsum. rewrite <- !sum_plus. apply sum_ext. intros i _. unfold lams, w. cbn [map sum_of INR].
    set (h := 360 + (INR i + r i) / INR n * 420). replace (h + 105 * 0) with h by ring. replace (h + 105 * 1) with (h + 105) by ring.
    replace (h + 105 * (1 + 1)) with (h + 210) by ring. replace (h + 105 * (1 + 1 + 1)) with (h + 315) by ring. ring. }
  assert (B : forall k, (k < 4)%nat -> Rabs (sum_of (fun i => f (w k i)) (seq 0 n) / INR n - v / (780 - 360)) <= L * (780 - 360) / INR n).
  { intros k Hk. apply (rotated_mean f 360 780 L n (k * m) v (w k)); try assumption; try lra; try lia; [nia|].
    intros i Hi. pose proof (wrap_cell n m i k (r i) En Hm Hi Hk (Hr i Hi)) as C. cbv zeta in C. unfold w. lra. }
  pose proof (B 0%nat ltac:(lia)) as B0. pose proof (B 1%nat ltac:(lia)) as B1. pose proof (B 2%nat ltac:(lia)) as B2. pose proof (B 3%nat ltac:(lia)) as B3. rewrite E. clear E B.
  generalize dependent (sum_of (fun i => f (w 0%nat i)) (seq 0 n)). generalize dependent (sum_of (fun i => f (w 1%nat i)) (seq 0 n)). generalize dependent (sum_of (fun i => f (w 2%nat i)) (seq 0 n)). generalize dependent (sum_of (fun i => f (w 3%nat i)) (seq 0 n)).
  intros s3 B3 s2 B2 s1 B1 s0 B0. replace (780 - 360) with 420 in * by lra.
  replace ((s0 + s1 + s2 + s3) / INR n - 4 * v / 420) with ((s0 / INR n - v / 420) + (s1 / INR n - v / 420) + (s2 / INR n - v / 420) + (s3 / INR n - v / 420)) by (field; lra).
  replace (1680 * L / INR n) with (4 * (L * 420 / INR n)) by (field; lra).
  apply Rabs_le_inv in B0, B1, B2, B3. apply Rabs_le. lra.
Qed.

Section Run.
Context {K : XConst} (debug : bool) (t : hero_tables xr) (rho : xr -> outcome xr) (fx fy fz fd g : R -> R).
Definition seen (ev : xr -> outcome xr) (f : R -> R) : Prop := forall l, 360 <= l < 780 -> ev (Fin l) = Ret (Fin (f l)).
Context (Hx : seen (sprague_evaluate debug (ht_x t)) fx) (Hy : seen (sprague_evaluate debug (ht_y t)) fy) (Hz : seen (sprague_evaluate debug (ht_z t)) fz)
  (Hd : seen (sprague_evaluate debug (ht_d65 t)) fd) (Hr : seen rho g).
Definition chan (c : R -> R) (l : R) : R := c l * (fd l * g l).
Lemma hero_adds ls : (forall l, In l ls -> 360 <= l < 780) -> forall a b c w, exists w',
  ofold (hero_add debug t rho) (map Fin ls) (FinXyz (a, b, c), FinXyz w)
  = Ret (FinXyz (a + sum_of (chan fx) ls, b + sum_of (chan fy) ls, c + sum_of (chan fz) ls), FinXyz w').
Proof.
  induction ls as [|l ls IH]; intros H a b c w.
  - exists w. cbn [map ofold sum_of]. rewrite !Rplus_0_r. reflexivity.
  - assert (B : 360 <= l < 780) by (apply H; left; reflexivity). cbn [map ofold sum_of]. unfold hero_add at 1. rewrite (Hd l B), (Hr l B), (Hx l B), (Hy l B), (Hz l B). cbn [obind fst snd].
    destruct w as [[u v] w]. destruct (IH (fun z Hz => H z (or_intror Hz)) (a + chan fx l) (b + chan fy l) (c + chan fz l) (u + fx l * fd l, v + fy l * fd l, w + fz l * fd l)) as (w' & E).
    exists w'. unfold FinXyz at 1 2. unfold xyz_add. cbn [xyz_x xyz_y xyz_z]. rewrite !x_mul, !x_add.
    change (Xyz (Fin (a + fx l * (fd l * g l))) (Fin (b + fy l * (fd l * g l))) (Fin (c + fz l * (fd l * g l)))) with (FinXyz (a + chan fx l, b + chan fy l, c + chan fz l)).
    change (Xyz (Fin (u + fx l * fd l)) (Fin (v + fy l * fd l)) (Fin (w + fz l * fd l))) with (FinXyz (u + fx l * fd l, v + fy l * fd l, w + fz l * fd l)). rewrite E.
    do 3 f_equal. unfold chan. leq; ring.
Qed.
Lemma hero_run n m r : (n = 4 * m)%nat -> (0 < m)%nat -> (forall i, (i < n)%nat -> 0 <= r i < 1) ->
  hero_xyz debug n t rho (fun i => Fin (r i)) = Ret (FinXyz (hsum (chan fx) n r / INR n, hsum (chan fy) n r / INR n, hsum (chan fz) n r / INR n)).
Proof.
  intros En Hm Hi. assert (N : 0 < INR n) by (apply lt_0_INR; lia).
  assert (HL : forall i, hero_lambda ((rof_Z (Z.of_nat i) + Fin (r i)) / rof_Z (Z.of_nat n))%num = map Fin (lams n r i)).
  { intro i. change (rof_Z (Z.of_nat i)) with (Fin (IZR (Z.of_nat i))). change (rof_Z (Z.of_nat n)) with (Fin (IZR (Z.of_nat n))). rewrite <- !INR_IZR_INZ, x_add, x_div by lra.
    rewrite hero_fin. unfold lams. rewrite map_map. reflexivity. }
  assert (G : forall is, (forall i, In i is -> (i < n)%nat) -> forall a b c w, exists w',
    ofold (fun s i => ofold (hero_add debug t rho) (hero_lambda ((rof_Z (Z.of_nat i) + Fin (r i)) / rof_Z (Z.of_nat n))%num) s) is (FinXyz (a, b, c), FinXyz w)
    = Ret (FinXyz (a + sum_of (fun i => sum_of (chan fx) (lams n r i)) is, b + sum_of (fun i => sum_of (chan fy) (lams n r i)) is, c + sum_of (fun i => sum_of (chan fz) (lams n r i)) is), FinXyz w')).
  { induction is as [|i is IH]; intros H a b c w.
    - exists w. cbn [ofold sum_of]. rewrite !Rplus_0_r. reflexivity.
    - assert (Bi : (i < n)%nat) by (apply H; left; reflexivity). cbn [ofold sum_of].
      rewrite (HL i). destruct (hero_adds (lams n r i) (lams_in n m r i En Hm Bi (Hi i Bi)) a b c w) as (w1 & ->). cbn [obind].
      destruct (IH (fun j Hj => H j (or_intror Hj)) (a + sum_of (chan fx) (lams n r i)) (b + sum_of (chan fy) (lams n r i)) (c + sum_of (chan fz) (lams n r i)) w1) as (w2 & E2).
      exists w2. rewrite E2. do 3 f_equal. leq; ring. }
  unfold hero_xyz. destruct (G (seq 0 n) (fun i Hi => proj2 (proj1 (in_seq n 0 i) Hi)) 0 0 0 (0, 0, 0)) as (w & E).
  assert (Z0 : xyz_from_scalar (rlitd 0.0) = FinXyz (0, 0, 0)) by (unfold xyz_from_scalar; rewrite x_litd; replace (Q2R 0.0) with 0 by (clear; q2r; lra); reflexivity).
  rewrite !Z0. rewrite E. cbn [obind fst]. unfold xyz_div, xyz_from_scalar, FinXyz. cbn [xyz_x xyz_y xyz_z].
  change (rof_Z (Z.of_nat n)) with (Fin (IZR (Z.of_nat n))). rewrite <- INR_IZR_INZ, !x_div by lra. rewrite !Rplus_0_l. reflexivity.
Qed.
End Run.

(* ---- piecewise linear functions ---- *)
Fixpoint plin (l : list (R * R)) (x : R) : R :=
  match l with
  | [] => 0
  | p :: l' => match l' with
      | [] => snd p
      | q :: _ => if Rle_dec x (fst p) then snd p else if Rlt_dec x (fst q) then snd p + (snd q - snd p) * ((x - fst p) / (fst q - fst p)) else plin l' x
      end
  end.
Lemma plin_head p l x : (match l with [] => True | q :: _ => fst p < fst q end) -> x <= fst p -> plin (p :: l) x = snd p.
Proof. destruct l as [|q l]; intros H X; cbn [plin]; [reflexivity|]. destruct (Rle_dec x (fst p)); [reflexivity|contradiction]. Qed.
Lemma glue (f : R -> R) c L : (forall x y, x <= c -> y <= c -> Rabs (f x - f y) <= L * Rabs (x - y)) -> (forall x y, c <= x -> c <= y -> Rabs (f x - f y) <= L * Rabs (x - y)) ->
  forall x y, Rabs (f x - f y) <= L * Rabs (x - y).
Proof.
  intros A B. assert (G : forall x y, x <= c -> c <= y -> Rabs (f x - f y) <= L * Rabs (x - y)).
  { intros x y X Y. pose proof (A x c X ltac:(lra)) as P. pose proof (B c y ltac:(lra) Y) as Q. replace (f x - f y) with ((f x - f c) + (f c - f y)) by ring.
    pose proof (Rabs_triang (f x - f c) (f c - f y)). rewrite (Rabs_left1 (x - y)) by lra. rewrite (Rabs_left1 (x - c)) in P by lra. rewrite (Rabs_left1 (c - y)) in Q by lra. lra. }
  intros x y. destruct (Rle_dec x c) as [X|X], (Rle_dec y c) as [Y|Y].
  - apply A; assumption.
  - apply G; lra.
  - rewrite (Rabs_minus_sym (f x)), (Rabs_minus_sym x). apply G; lra.
  - apply B; lra.
Qed.
Lemma plin_glip l : strictly l -> exists L, 0 <= L /\ forall x y, Rabs (plin l x - plin l y) <= L * Rabs (x - y).
Proof.
  assert (Z : forall z, z - z = 0) by (intro; ring). induction l as [|p l IH]; intro S; [exists 0; split; [lra|]; intros; cbn; rewrite Z, Rabs_R0; lra|].
  apply StronglySorted_inv in S. destruct S as [S F]. destruct l as [|q l]; [exists 0; split; [lra|]; intros; cbn [plin]; rewrite Z, Rabs_R0; lra|].
  destruct (IH S) as (L & L0 & HL). assert (PQ : fst p < fst q) by (rewrite Forall_forall in F; apply F; left; reflexivity).
  set (s := Rabs (snd q - snd p) / (fst q - fst p)). assert (S0 : 0 <= s) by (apply Rdiv_le_0_compat; [apply Rabs_pos|lra]).
  assert (HQ : plin (q :: l) (fst q) = snd q). { apply plin_head; [|lra]. destruct l as [|r l]; [exact I|]. apply StronglySorted_inv in S. destruct S as [_ S]. rewrite Forall_forall in S. apply S. left. reflexivity. }
  exists (L + s). split; [lra|]. apply (glue _ (fst p)).
  - intros x y X Y. rewrite !plin_head by assumption. rewrite Z, Rabs_R0. pose proof (Rabs_pos (x - y)). nra.
  - assert (V : forall x, fst p <= x <= fst q -> plin (p :: q :: l) x = snd p + (snd q - snd p) * ((x - fst p) / (fst q - fst p))).
    { intros x X. remember (q :: l) as t eqn:Et. cbn [plin]. rewrite Et. rewrite <- Et. destruct (Rle_dec x (fst p)).
      - replace (x - fst p) with 0 by lra. unfold Rdiv. ring.
      - destruct (Rlt_dec x (fst q)); [reflexivity|]. replace x with (fst q) by lra. rewrite HQ. field. lra. }
    assert (W : forall x, fst q <= x -> plin (p :: q :: l) x = plin (q :: l) x).
    { intros x X. remember (q :: l) as t eqn:Et. cbn [plin]. rewrite Et. rewrite <- Et. destruct (Rle_dec x (fst p)); [lra|]. destruct (Rlt_dec x (fst q)); [lra|reflexivity]. }
    assert (A : forall x y, fst p <= x <= fst q -> fst p <= y <= fst q -> Rabs (plin (p :: q :: l) x - plin (p :: q :: l) y) <= (L + s) * Rabs (x - y)).
    { intros x y X Y. rewrite !V by assumption. match goal with |- Rabs ?e <= _ => replace e with ((snd q - snd p) / (fst q - fst p) * (x - y)) by (field; lra) end.
      rewrite Rabs_mult. unfold Rdiv. rewrite Rabs_mult, (Rabs_right (/ (fst q - fst p))) by (apply Rle_ge, Rlt_le, Rinv_0_lt_compat; lra). fold (Rdiv (Rabs (snd q - snd p)) (fst q - fst p)). fold s.
      pose proof (Rabs_pos (x - y)). nra. }
    assert (B : forall x y, fst q <= x -> fst q <= y -> Rabs (plin (p :: q :: l) x - plin (p :: q :: l) y) <= (L + s) * Rabs (x - y)).
    { intros x y X Y. rewrite !W by assumption. pose proof (HL x y). pose proof (Rabs_pos (x - y)). nra. }
    intros x y X Y. set (f := fun z => plin (p :: q :: l) (Rmax (fst p) z)).
    pose proof (glue f (fst q) (L + s)) as G. unfold f in G.
    assert (MX : Rmax (fst p) x = x) by (apply Rmax_right, X). assert (MY : Rmax (fst p) y = y) by (apply Rmax_right, Y). rewrite <- MX at 1. rewrite <- MY at 1. apply G; clear x y X Y MX MY G f.
    + intros x y X Y. eapply Rle_trans; [apply A; (split; [apply Rmax_l|apply Rmax_lub; lra])|]. apply Rmult_le_compat_l; [lra|].
      unfold Rmax. destruct (Rle_dec (fst p) x), (Rle_dec (fst p) y); unfold Rabs; repeat destruct (Rcase_abs _); lra.
    + intros x y X Y. rewrite !Rmax_right by lra. apply B; assumption.
Qed.
Lemma plin_lips l a b : strictly l -> lips (plin l) a b.
Proof. intro S. destruct (plin_glip l S) as (L & L0 & H). exists L. split; [exact L0|]. intros x y _ _. apply H. Qed.
Lemma plin_nth l i x : strictly l -> (S i < length l)%nat -> fst (nth i l (0, 0)) <= x < fst (nth (S i) l (0, 0)) ->
  plin l x = (let d := (x - fst (nth i l (0, 0))) / (fst (nth (S i) l (0, 0)) - fst (nth i l (0, 0))) in (1 - d) * snd (nth i l (0, 0)) + d * snd (nth (S i) l (0, 0))).
Proof.
  revert i. induction l as [|p l IH]; intros i S L X; [cbn in L; lia|]. destruct l as [|q l]; [cbn in L; lia|]. pose proof S as S'. apply StronglySorted_inv in S'. destruct S' as [S' F].
  assert (PQ : fst p < fst q) by (rewrite Forall_forall in F; apply F; left; reflexivity). destruct i as [|i].
  - cbn [nth] in *. remember (q :: l) as t eqn:Et. cbn [plin]. rewrite Et. destruct (Rle_dec x (fst p)); [replace x with (fst p) by lra; cbv zeta; field; lra|]. destruct (Rlt_dec x (fst q)); [cbv zeta; field; lra|lra].
  - change (nth (Datatypes.S (Datatypes.S i)) (p :: q :: l) (0, 0)) with (nth (Datatypes.S i) (q :: l) (0, 0)) in *. change (nth (Datatypes.S i) (p :: q :: l) (0, 0)) with (nth i (q :: l) (0, 0)) in *. rewrite <- (IH i S') by (cbn in *; lia || exact X).
    assert (Q : fst q <= fst (nth i (q :: l) (0, 0))) by (destruct i as [|i]; [cbn; lra|]; left; apply (strictly_nth (q :: l) 0 (Datatypes.S i)); [exact S'|lia|cbn in *; lia]).
    remember (q :: l) as t eqn:Et. cbn [plin]. rewrite Et. rewrite <- Et. destruct (Rle_dec x (fst p)); [lra|]. destruct (Rlt_dec x (fst q)); [lra|reflexivity].
Qed.
Lemma plin_last l x : strictly l -> l <> [] -> fst (nth (length l - 1) l (0, 0)) <= x -> plin l x = snd (nth (length l - 1) l (0, 0)).
Proof.
  induction l as [|p l IH]; intros S N X; [contradiction|]. destruct l as [|q l]; [reflexivity|]. pose proof S as S'. apply StronglySorted_inv in S'. destruct S' as [S' F].
  assert (PQ : fst p < fst q) by (rewrite Forall_forall in F; apply F; left; reflexivity).
  replace (length (p :: q :: l) - 1)%nat with (Datatypes.S (length (q :: l) - 1)) in * by (cbn; lia). change (nth (Datatypes.S (length (q :: l) - 1)) (p :: q :: l) (0, 0)) with (nth (length (q :: l) - 1) (q :: l) (0, 0)) in *. specialize (IH S' ltac:(discriminate)).
  assert (Q : fst q <= fst (nth (length (q :: l) - 1) (q :: l) (0, 0))). { destruct (length (q :: l) - 1)%nat as [|j] eqn:E; [cbn; lra|]. left. apply (strictly_nth (q :: l) 0 (Datatypes.S j)); [exact S'|lia|lia]. }
  rewrite <- IH by exact X. remember (q :: l) as t eqn:Et. cbn [plin]. rewrite Et. rewrite <- Et. destruct (Rle_dec x (fst p)); [lra|]. destruct (Rlt_dec x (fst q)); [lra|reflexivity].
Qed.
Section L.
Context {K : XConst}.
Lemma linear_lin l sh x : strictly l -> l <> [] -> linear_evaluate (Vspd (FinSamps l) sh) (Fin x) = Ret (Fin (plin l x)).
Proof.
  intros S N. destruct (C55_linear_total l sh x S N) as (A & B & _ & _).
  destruct (Rle_dec x (fst (nth 0 l (0, 0)))) as [X|X].
  - rewrite (A X). do 2 f_equal. destruct l as [|p l]; [contradiction|]. symmetry. apply plin_head; [|exact X]. destruct l as [|q l]; [exact I|]. apply StronglySorted_inv in S. destruct S as [_ S]. rewrite Forall_forall in S. apply S. left. reflexivity.
  - destruct (Rle_dec (fst (nth (length l - 1) l (0, 0))) x) as [Y|Y].
    + rewrite (B Y), (plin_last l x S N Y). reflexivity.
    + destruct (find_segment l x N ltac:(lra) ltac:(lra)) as (i & Li & Hi). rewrite (linear_between l sh i x S Li Hi), (plin_nth l i x S Li Hi). reflexivity.
Qed.
End L.
