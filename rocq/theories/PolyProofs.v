(* The product of two Sprague interpolants on a 1 nm cell as an integer polynomial: exact integral and Lipschitz constant of y-bar times D65 *)
From Coq Require Import Reals ZArith QArith Qreals Lra Lia List Bool.
From Flocq Require Import Core.
From Verif Require Import Outcome RealOps MathModel ColorModel InterpModel VspdModel XReal VspdProofs PropShape SpragueProofs PropSprague AlignProofs PropAlign WeightProofs XyzProofs PropDiffuser PropTables WhiteProofs PropWhite StratProofs HeroProofs.
From Verif Require Import DataIllum DataCmf.
Import ListNotations.
Open Scope R_scope.

(* on a closed cell the interpolant is one polynomial *)
Lemma sv_cell s h vals j x : 0 < h -> (2 <= length vals)%nat -> (S j < length vals)%nat -> s + INR j * h <= x <= s + INR (S j) * h ->
  sv s h vals x = P0 (seg (ext vals) (j + 2)) ((x - (s + INR j * h)) / h).
Proof.
  intros Hh L Hj [A B]. destruct (Rle_lt_or_eq_dec _ _ B) as [B'|B'].
  - unfold sv. assert (P : piece (s - 2 * h) h 2 (length vals) x = (j + 2)%nat).
    { unfold piece. rewrite (floor_at (s - 2 * h) h Hh x (Z.of_nat (j + 2))); [rewrite Nat2Z.id; lia|]. rewrite plus_IZR, <- INR_IZR_INZ, plus_INR. rewrite S_INR in B'. cbn [INR]. lra. }
    rewrite P. f_equal. rewrite plus_INR. cbn [INR]. field. lra.
  - rewrite B', (sv_knot (K := f64_const)) by (assumption || lia). rewrite S_INR. replace ((s + (INR j + 1) * h - (s + INR j * h)) / h) with 1 by (field; lra).
    unfold seg. rewrite <- (ext_nth vals (S j)) by exact Hj. replace (S j + 2)%nat with (j + 2 + 1)%nat by lia. unfold seg6. cbn [P0]. field.
Qed.

(* polynomials with integer coefficients *)
Definition PZ (p : list Z) (x : R) : R := P0 (map IZR p) x.
Fixpoint zpadd (p q : list Z) : list Z := match p, q with [], q => q | p, [] => p | a :: p, b :: q => (a + b)%Z :: zpadd p q end.
Lemma PZ_add p : forall q x, PZ (zpadd p q) x = PZ p x + PZ q x.
Proof.
  unfold PZ. induction p as [|a p IH]; intros [|b q] x; cbn [zpadd map P0]; try ring. rewrite IH, plus_IZR. ring.
Qed.
Lemma PZ_scale c p x : PZ (map (Z.mul c) p) x = IZR c * PZ p x.
Proof. unfold PZ. induction p as [|a p IH]; cbn [map P0]; [ring|]. rewrite IH, mult_IZR. ring. Qed.
Fixpoint zpmul (p q : list Z) : list Z := match p with [] => [] | a :: p => zpadd (map (Z.mul a) q) (0%Z :: zpmul p q) end.
Lemma PZ_mul p : forall q x, PZ (zpmul p q) x = PZ p x * PZ q x.
Proof.
  induction p as [|a p IH]; intros q x; cbn [zpmul]; [unfold PZ; cbn; ring|]. rewrite PZ_add, PZ_scale. unfold PZ at 2. cbn [map P0]. fold (PZ (zpmul p q) x). rewrite IH. unfold PZ. cbn [map P0]. ring.
Qed.
(* 5^n times p at (c + t) / 5 *)
Fixpoint zsh (c : Z) (n : nat) (p : list Z) : list Z :=
  match p, n with
  | a :: p, S n' => zpadd [(a * 5 ^ Z.of_nat n)%Z] (zpmul [c; 1%Z] (zsh c n' p))
  | a :: _, O => [a]
  | [], _ => []
  end.
Lemma PZ_sh c p : forall n t, (length p <= S n)%nat -> PZ (zsh c n p) t = 5 ^ n * PZ p ((IZR c + t) / 5).
Proof.
  induction p as [|a p IH]; intros n t H; [destruct n; unfold PZ; cbn; ring|]. destruct n as [|n].
  - destruct p; [|cbn in H; lia]. unfold PZ. cbn. ring.
  - cbn [zsh]. rewrite PZ_add, PZ_mul, IH by (cbn in H; lia). unfold PZ. cbn [map P0]. rewrite mult_IZR, <- pow_IZR. cbn [pow]. field.
Qed.
(* 24 times the segment through six values *)
Definition zseg (E : list Z) (i : nat) : list Z :=
  match firstn 6 (skipn i E) with
  | [r0; r1; r2; r3; r4; r5] => [24 * r2; 2 * r0 - 16 * r1 + 16 * r3 - 2 * r4; - r0 + 16 * r1 - 30 * r2 + 16 * r3 - r4; - 9 * r0 + 39 * r1 - 70 * r2 + 66 * r3 - 33 * r4 + 7 * r5;
      13 * r0 - 64 * r1 + 126 * r2 - 124 * r3 + 61 * r4 - 12 * r5; - 5 * r0 + 25 * r1 - 50 * r2 + 50 * r3 - 25 * r4 + 5 * r5]%Z
  | _ => []
  end.
Lemma zseg_length E i : (i + 6 <= length E)%nat -> length (zseg E i) = 6%nat.
Proof. intro H. unfold zseg. rewrite (firstn6 _ _ 0%Z) by exact H. reflexivity. Qed.
Lemma zext_length l : length (zext l) = (length l + 4)%nat.
Proof. unfold zext. rewrite !app_length, map_length. cbn [length]. lia. Qed.
Lemma seg_zseg d l j x : d <> 0 -> (S j < length l)%nat -> P0 (seg (ext (map (fun z => IZR z / d) l)) (j + 2)) x = PZ (zseg (zext l) j) x / (24 * (209 * d)).
Proof.
  intros Hd H. rewrite zext_ext by exact Hd. pose proof (zext_length l) as L. unfold zseg. rewrite (firstn6 _ _ 0%Z) by lia.
  unfold seg. rewrite !nth_scaled. replace (j + 2 - 2)%nat with j by lia. replace (j + 2 - 1)%nat with (j + 1)%nat by lia. replace (j + 2 + 1)%nat with (j + 3)%nat by lia. replace (j + 2 + 2)%nat with (j + 4)%nat by lia. replace (j + 2 + 3)%nat with (j + 5)%nat by lia.
  generalize (nth j (zext l) 0%Z) (nth (j + 1) (zext l) 0%Z) (nth (j + 2) (zext l) 0%Z) (nth (j + 3) (zext l) 0%Z) (nth (j + 4) (zext l) 0%Z) (nth (j + 5) (zext l) 0%Z).
  intros r0 r1 r2 r3 r4 r5. unfold PZ, seg6. cbn [map P0]. rewrite ?plus_IZR, ?minus_IZR, ?plus_IZR, ?minus_IZR, ?plus_IZR, ?minus_IZR, ?opp_IZR, ?mult_IZR. 
  repeat rewrite ?plus_IZR, ?minus_IZR, ?opp_IZR, ?mult_IZR. field. exact Hd.
Qed.

(* bounds on the derivative, and the integral, over [0, 1] *)
Fixpoint zabs (p : list Z) : Z := match p with [] => 0 | a :: p => Z.abs a + zabs p end%Z.
Fixpoint zder (p : list Z) : Z := match p with [] => 0 | _ :: p => zabs p + zder p end%Z.
Lemma PZ_abs p t : 0 <= t <= 1 -> Rabs (P0 (map IZR p) t) <= IZR (zabs p).
Proof.
  intro T. induction p as [|a p IH]; cbn [map P0 zabs]; [rewrite Rabs_R0; lra|]. rewrite plus_IZR, abs_IZR. eapply Rle_trans; [apply Rabs_triang|]. apply Rplus_le_compat_l.
  rewrite Rabs_mult, (Rabs_right t) by lra. pose proof (Rabs_pos (P0 (map IZR p) t)). nra.
Qed.
Lemma PZ_der p t : 0 <= t <= 1 -> Rabs (P1 (map IZR p) t) <= IZR (zder p).
Proof.
  intro T. induction p as [|a p IH]; cbn [map P1 zder]; [rewrite Rabs_R0; lra|]. rewrite plus_IZR. eapply Rle_trans; [apply Rabs_triang|]. apply Rplus_le_compat; [apply PZ_abs, T|].
  rewrite Rabs_mult, (Rabs_right t) by lra. pose proof (Rabs_pos (P1 (map IZR p) t)). nra.
Qed.
Lemma shift_deriv p a x : derivable_pt_lim (fun x => P0 p (x - a)) x (P1 p (x - a)).
Proof.
  replace (P1 p (x - a)) with (P1 p (x - a) * 1) by ring. apply (derivable_pt_lim_comp (fun x => x - a) (P0 p)); [|apply P0_deriv].
  replace 1 with (1 - 0) by ring. apply (derivable_pt_lim_minus (fun x => x) (fun _ => a)); [apply derivable_pt_lim_id|apply derivable_pt_lim_const].
Qed.
Lemma PZ_lip p a : lipschitz (fun x => PZ p (x - a)) a (a + 1) (IZR (zder p)).
Proof.
  apply (deriv_lip _ (fun x => P1 (map IZR p) (x - a))).
  - intros x _. apply shift_deriv.
  - intros x X. apply PZ_der. lra.
Qed.
Definition zint11 (p : list Z) : Z := zdot [27720; 13860; 9240; 6930; 5544; 4620; 3960; 3465; 3080; 2772; 2520]%Z p.
Lemma PZ_integral p a k : length p = 11%nat -> integral (fun x => k * PZ p (x - a)) a (a + 1) (k * (IZR (zint11 p) / 27720)).
Proof.
  intro L. destruct p as [|c0 [|c1 [|c2 [|c3 [|c4 [|c5 [|c6 [|c7 [|c8 [|c9 [|c10 [|]]]]]]]]]]]]; try discriminate L. clear L.
  set (p := [c0; c1; c2; c3; c4; c5; c6; c7; c8; c9; c10]). set (q := [0; IZR c0; IZR c1 / 2; IZR c2 / 3; IZR c3 / 4; IZR c4 / 5; IZR c5 / 6; IZR c6 / 7; IZR c7 / 8; IZR c8 / 9; IZR c9 / 10; IZR c10 / 11]).
  assert (E : k * (IZR (zint11 p) / 27720) = k * P0 q (a + 1 - a) - k * P0 q (a - a)).
  { replace (a + 1 - a) with 1 by ring. replace (a - a) with 0 by ring. unfold zint11, p, q. cbn [zdot P0]. rewrite !plus_IZR, !mult_IZR. field. }
  rewrite E. apply (integral_prim (fun x => k * P0 q (x - a)) (fun x => k * PZ p (x - a))); [lra| |].
  - intro x. replace (PZ p (x - a)) with (P1 q (x - a)) by (unfold PZ, p, q; cbn [map P0 P1]; field). apply (derivable_pt_lim_scal (fun x => P0 q (x - a)) k), shift_deriv.
  - intro x. apply derivable_continuous_pt. exists (k * P1 (map IZR p) (x - a)). apply (derivable_pt_lim_scal (fun x => P0 (map IZR p) (x - a)) k), shift_deriv.
Qed.

(* cells side by side *)
Lemma lip_join f a b c L : lipschitz f a b L -> lipschitz f b c L -> lipschitz f a c L.
Proof.
  intros A B. assert (G : forall x y, a <= x <= c -> a <= y <= c -> x <= y -> Rabs (f x - f y) <= L * Rabs (x - y)).
  { intros x y X Y XY. destruct (Rle_dec y b) as [H|H]; [apply A; lra|]. destruct (Rle_dec b x) as [H'|H']; [apply B; lra|].
    pose proof (A x b ltac:(lra) ltac:(lra)) as P. pose proof (B b y ltac:(lra) ltac:(lra)) as Q. replace (f x - f y) with ((f x - f b) + (f b - f y)) by ring.
    pose proof (Rabs_triang (f x - f b) (f b - f y)). rewrite (Rabs_left1 (x - y)) by lra. rewrite (Rabs_left1 (x - b)) in P by lra. rewrite (Rabs_left1 (b - y)) in Q by lra. lra. }
  intros x y X Y. destruct (Rle_dec x y); [apply G; lra|]. rewrite (Rabs_minus_sym (f x)), (Rabs_minus_sym x). apply G; lra.
Qed.
Fixpoint zsum (f : nat -> Z) (n : nat) : Z := match n with O => 0 | S n => f n + zsum f n end%Z.
Lemma cells f s d (w : nat -> list Z) M : 0 < d -> forall n, (forall k, (k < n)%nat -> length (w k) = 11%nat /\ (zder (w k) <= M)%Z /\ forall x, s + INR k <= x <= s + INR k + 1 -> f x = PZ (w k) (x - (s + INR k)) / d) ->
  lipschitz f s (s + INR n) (IZR M / d) /\ integral f s (s + INR n) (IZR (zsum (fun k => zint11 (w k)) n) / (27720 * d)).
Proof.
  intros Hd. induction n as [|n IH]; intro H.
  - cbn [INR zsum]. replace (s + 0) with s by ring. split.
    + intros x y X Y. replace y with x by lra. replace (f x - f x) with 0 by ring. replace (x - x) with 0 by ring. rewrite Rabs_R0. lra.
    + replace (0 / (27720 * d)) with 0 by (field; lra). apply integral_point.
  - destruct IH as [IL II]; [intros k Hk; apply H; lia|]. destruct (H n ltac:(lia)) as (L & D & E). rewrite S_INR. replace (s + (INR n + 1)) with (s + INR n + 1) by ring. split.
    + apply (lip_join _ _ (s + INR n)); [exact IL|]. apply (lip_ext (fun x => PZ (w n) (x - (s + INR n)) / d)); [intros x X; symmetry; apply E; exact X|].
      intros x y X Y. pose proof (PZ_lip (w n) (s + INR n) x y X Y) as P. cbv beta in P. set (u := PZ (w n) (x - (s + INR n))) in *. set (v := PZ (w n) (y - (s + INR n))) in *.
      replace (u / d - v / d) with ((u - v) / d) by (field; lra). unfold Rdiv. rewrite Rabs_mult, (Rabs_right (/ d)) by (apply Rle_ge, Rlt_le, Rinv_0_lt_compat, Hd).
      apply IZR_le in D. replace (IZR M * / d * Rabs (x - y)) with (IZR M * Rabs (x - y) * / d) by ring. apply Rmult_le_compat_r; [apply Rlt_le, Rinv_0_lt_compat, Hd|].
      eapply Rle_trans; [exact P|]. apply Rmult_le_compat_r; [apply Rabs_pos|exact D].
    + cbn [zsum]. rewrite plus_IZR. replace ((IZR (zint11 (w n)) + IZR (zsum (fun k => zint11 (w k)) n)) / (27720 * d)) with (IZR (zsum (fun k => zint11 (w k)) n) / (27720 * d) + / d * (IZR (zint11 (w n)) / 27720)) by (field; lra).
      apply (integral_join _ _ (s + INR n)); [exact II|]. apply (integral_ext (fun x => / d * PZ (w n) (x - (s + INR n)))); [lra|intros x X; rewrite E by exact X; unfold Rdiv; ring|]. apply PZ_integral, L.
Qed.

(* y-bar times D65 *)
Definition ylist : list Z := zext (zs 1000000000000 data_y_bar).
Definition dlist : list Z := zext (zs 10000 data_D65).
Definition wcell_of (y d : list Z) (k : nat) : list Z := zpmul (zseg y k) (zsh (Z.of_nat (k mod 5)) 5 (zseg d (12 + k / 5))).
Definition wcell : nat -> list Z := wcell_of ylist dlist.
Definition unit_ : Z := (24 * (209 * 1000000000000) * (3125 * (24 * (209 * 10000))))%Z.
(* one pass over the tables: the sum, and whether every cell is as flat as M *)
Fixpoint pass (y d : list Z) (M : Z) (n : nat) : Z * bool :=
  match n with
  | O => (0%Z, true)
  | S n => let w := wcell_of y d n in let '(t, b) := pass y d M n in ((zint11 w + t)%Z, (Nat.eqb (length w) 11 && Z.leb (zder w) M && b)%bool)
  end.
Lemma pass_spec y d M n : pass y d M n = (zsum (fun k => zint11 (wcell_of y d k)) n, forallb (fun k => Nat.eqb (length (wcell_of y d k)) 11 && Z.leb (zder (wcell_of y d k)) M)%bool (seq 0 n)).
Proof.
  induction n as [|n IH]; [reflexivity|]. cbn [pass zsum]. rewrite IH. rewrite seq_S, forallb_app. cbn [forallb Nat.add]. f_equal. rewrite andb_true_r, andb_comm. reflexivity.
Qed.
Lemma pass_out y d M n t : pass y d M n = (t, true) -> zsum (fun k => zint11 (wcell_of y d k)) n = t /\ forall k, (k < n)%nat -> length (wcell_of y d k) = 11%nat /\ (zder (wcell_of y d k) <= M)%Z.
Proof.
  intro H. rewrite pass_spec in H. injection H as A B. split; [exact A|]. intros k Hk. rewrite forallb_forall in B. specialize (B k ltac:(apply in_seq; lia)).
  apply andb_true_iff in B. destruct B as [B C]. split; [apply Nat.eqb_eq, B|apply Z.leb_le, C].
Qed.
Lemma passes : pass ylist dlist 1700532667044159388000000000 420 = (230314455238072403484366375783984100%Z, true). Proof. vm_compute. reflexivity. Qed.
Lemma zs_length m l : length (zs m l) = length l. Proof. unfold zs. rewrite !map_length. reflexivity. Qed.
Lemma ycell k x : (k < 420)%nat -> 360 + INR k <= x <= 360 + INR k + 1 -> sv 360 1 (vals data_y_bar) x * sv 300 5 (vals data_D65) x = PZ (wcell k) (x - (360 + INR k)) / IZR unit_.
Proof.
  intros Hk Hx. assert (LY : length (zs 1000000000000 data_y_bar) = 471%nat) by reflexivity. assert (LD : length (zs 10000 data_D65) = 97%nat) by reflexivity.
  rewrite (vals_scaled 1000000000000 data_y_bar), (vals_scaled 10000 data_D65) by reflexivity.
  assert (Dk : (k / 5 < 84)%nat) by (apply Nat.div_lt_upper_bound; lia). pose proof (Nat.div_mod k 5 ltac:(lia)) as DM. pose proof (Nat.mod_upper_bound k 5 ltac:(lia)) as MB.
  assert (Kr : INR k = 5 * INR (k / 5) + INR (k mod 5)) by (rewrite DM at 1; rewrite plus_INR, mult_INR; cbn [INR]; ring).
  assert (Mr : INR (k mod 5) <= 4) by (replace 4 with (INR 4) by (rewrite INR_IZR_INZ; reflexivity); apply le_INR; lia). pose proof (pos_INR (k mod 5)) as Mp.
  assert (T : INR 12 = 12) by (rewrite INR_IZR_INZ; reflexivity).
  rewrite (sv_cell 360 1 _ k) by (rewrite ?map_length, ?LY, ?S_INR; lia || lra). rewrite (sv_cell 300 5 _ (12 + k / 5)) by (rewrite ?map_length, ?LD, ?S_INR, ?plus_INR, ?T; lia || lra).
  rewrite !seg_zseg by (rewrite ?LY, ?LD; lia || (apply IZR_neq; discriminate)). unfold wcell, wcell_of. rewrite PZ_mul, PZ_sh by (unfold dlist; rewrite zseg_length; [lia|rewrite zext_length, LD; lia]).
  fold ylist dlist. replace ((x - (360 + INR k * 1)) / 1) with (x - (360 + INR k)) by field.
  replace ((x - (300 + INR (12 + k / 5) * 5)) / 5) with ((IZR (Z.of_nat (k mod 5)) + (x - (360 + INR k))) / 5) by (rewrite <- INR_IZR_INZ, plus_INR, T, Kr; field).
  set (u := PZ (zseg ylist k) (x - (360 + INR k))). set (v := PZ (zseg dlist (12 + k / 5)) ((IZR (Z.of_nat (k mod 5)) + (x - (360 + INR k))) / 5)). clearbody u v. unfold unit_. rewrite !mult_IZR. cbn [pow]. field.
Qed.
Lemma brightness : let f x := sv 360 1 (vals data_y_bar) x * sv 300 5 (vals data_D65) x in
  lipschitz f 360 780 2.163 /\ exists v, integral f 360 780 v /\ 10567.27 <= v <= 10567.28.
Proof.
  intro f. assert (U : IZR unit_ = 786258000000000000000000000) by reflexivity. assert (U0 : 0 < IZR unit_) by (rewrite U; lra). assert (E420 : 360 + INR 420 = 780) by (rewrite INR_IZR_INZ; cbn; ring).
  destruct (pass_out _ _ _ _ _ passes) as [TE F].
  destruct (cells f 360 (IZR unit_) wcell 1700532667044159388000000000 U0 420) as [A B].
  { intros k Hk. destruct (F k Hk) as [F1 F2]. split; [exact F1|]. split; [exact F2|]. intros x Hx. exact (ycell k x Hk Hx). }
  unfold wcell in B. rewrite TE in B. rewrite E420, U in A, B. split.
  - apply (lip_mono _ _ _ _ _ A). lra.
  - eexists. split; [exact B|]. split; lra.
Qed.
