(* f64 numbers that are integers: wavelengths of tabulated spectra *)
From Coq Require Import Reals ZArith QArith Qreals Lra Lia Bool List Sorting.Sorted.
From Flocq Require Import Core BinarySingleNaN.
From Verif Require Import Outcome RealOps MathModel ColorModel InterpModel VspdModel XReal SpecLin FloatInst FloatProofs ErrProofs CurveProofs VspdProofs SpragueProofs PropShape PropSprague AlignProofs PropAlign SpragueErrProofs PropInterp LagrangeProofs WeightProofs PropWeights LinProofs XyzProofs PropStab.
Import ListNotations.
Open Scope R_scope.

Local Notation f64 := (binary_float 53 1024).
Notation u := (bpow radix2 (Z.opp 53)).
Notation rnd := (round radix2 (SpecFloat.fexp 53 1024) ZnearestE).
Lemma u53 : 0 < u <= / 9000000000000000.
Proof. change u with (/ IZR (2 ^ 53)). split; [apply Rinv_0_lt_compat, IZR_lt; reflexivity|]. apply Rinv_le; [lra|]. apply IZR_le. vm_compute. discriminate. Qed.

(* ---- numbers that are integers ---- *)
Definition isZ (n : Z) (r : f64) : Prop := is_finite r = true /\ B2R r = IZR n.
Definition small (n : Z) : Prop := (Z.abs n <= 400000)%Z.
Lemma Z53 n : (Z.abs n <= 1000000000)%Z -> (Z.abs n <= 2 ^ 53)%Z. Proof. intro H. eapply Z.le_trans; [exact H|]. vm_compute. discriminate. Qed.
Lemma rnd_Z n : (Z.abs n <= 1000000000)%Z -> rnd (IZR n) = IZR n.
Proof. intro H. apply round_generic; auto with typeclass_instances. apply (int_format 53 1024), Z53, H. Qed.
Lemma Z_below n : (Z.abs n <= 1000000000)%Z -> Rabs (rnd (IZR n)) < bpow radix2 1024.
Proof. intro H. rewrite rnd_Z by exact H. apply (int_lt_emax 53 1024), Z53, H. Qed.
Lemma isZ_of n : (Z.abs n <= 1000000000)%Z -> isZ n (b_of_Z 53 1024 n).
Proof. intro H. destruct (b_of_Z_exact 53 1024 n (Z53 n H)) as (A & B & _). split; assumption. Qed.
Lemma isZ_lit q n : Q2R q = IZR n -> (Z.abs n <= 1000000000)%Z -> isZ n (b_of_Q 53 1024 q).
Proof. intros E H. destruct (b_of_Q_int 53 1024 q n E (Z53 n H)) as (A & B). split; assumption. Qed.
Lemma isZ_add n m r s : isZ n r -> isZ m s -> (Z.abs (n + m) <= 1000000000)%Z -> isZ (n + m) (Bplus mode_NE r s).
Proof.
  intros (F & E) (F' & E') H. assert (G : is_finite (Bplus mode_NE r s) = true) by (apply plus_small; try assumption; rewrite E, E', <- plus_IZR; apply Z_below, H).
  split; [exact G|]. apply plus_fin in G. destruct G as (_ & _ & ->). rewrite E, E', <- plus_IZR. apply rnd_Z, H.
Qed.
Lemma isZ_sub n m r s : isZ n r -> isZ m s -> (Z.abs (n - m) <= 1000000000)%Z -> isZ (n - m) (Bminus mode_NE r s).
Proof.
  intros (F & E) (F' & E') H. pose proof (Bminus_correct 53 1024 _ _ mode_NE r s F F') as C. cbn [round_mode] in C. rewrite E, E', <- minus_IZR, Rlt_bool_true in C by (apply Z_below, H).
  destruct C as (C1 & C2 & _). split; [exact C2|]. rewrite C1. apply rnd_Z, H.
Qed.
Lemma isZ_mul n m r s : isZ n r -> isZ m s -> (Z.abs (n * m) <= 1000000000)%Z -> isZ (n * m) (Bmult mode_NE r s).
Proof.
  intros (F & E) (F' & E') H. assert (G : is_finite (Bmult mode_NE r s) = true) by (apply mult_small; try assumption; rewrite E, E', <- mult_IZR; apply Z_below, H).
  split; [exact G|]. apply mult_fin in G. destruct G as (_ & _ & ->). rewrite E, E', <- mult_IZR. apply rnd_Z, H.
Qed.
Lemma isZ_lt n m r s : isZ n r -> isZ m s -> Bltb r s = (n <? m)%Z.
Proof. intros (F & E) (F' & E'). rewrite Bltb_correct, E, E' by assumption. destruct (Z.ltb_spec n m); [apply Rlt_bool_true, IZR_lt; assumption|apply Rlt_bool_false, IZR_le; assumption]. Qed.
Lemma isZ_le n m r s : isZ n r -> isZ m s -> Bleb r s = (n <=? m)%Z.
Proof. intros (F & E) (F' & E'). rewrite Bleb_correct, E, E' by assumption. destruct (Z.leb_spec n m); [apply Rle_bool_true, IZR_le; assumption|apply Rle_bool_false, IZR_lt; assumption]. Qed.
Lemma isZ_nan n r : isZ n r -> is_nan r = false. Proof. intros (F & _). destruct r; try reflexivity; discriminate. Qed.
Lemma isZ_max n m r s : isZ n r -> isZ m s -> isZ (Z.max n m) (b_max 53 1024 r s).
Proof. intros A B. unfold b_max. rewrite (isZ_nan n r A), (isZ_nan m s B), (isZ_lt n m r s A B). destruct (Z.ltb_spec n m); [rewrite Z.max_r by lia; exact B|rewrite Z.max_l by lia; exact A]. Qed.
Lemma isZ_min n m r s : isZ n r -> isZ m s -> isZ (Z.min n m) (b_min 53 1024 r s).
Proof. intros A B. unfold b_min. rewrite (isZ_nan n r A), (isZ_nan m s B), (isZ_lt m n s r B A). destruct (Z.ltb_spec m n); [rewrite Z.min_r by lia; exact B|rewrite Z.min_l by lia; exact A]. Qed.
Lemma trunc_floor (r : f64) k : is_finite r = true -> (0 <= k)%Z -> IZR k <= B2R r < IZR (k + 1) -> Btrunc r = k.
Proof.
  intros F K0 H. assert (E : IZR (Btrunc r) = IZR (Zfloor (B2R r))).
  { rewrite Btrunc_correct by reflexivity. unfold round, F2R, scaled_mantissa, cexp, FIX_exp. cbn [Fnum Fexp bpow Z.opp]. rewrite !Rmult_1_r. rewrite Ztrunc_floor; [reflexivity|]. apply Rle_trans with (IZR k); [apply IZR_le, K0|apply H]. }
  apply eq_IZR in E. rewrite E. apply Zfloor_imp, H.
Qed.
(* the number of steps of a grid *)
Lemma steps_float n i r s : isZ n r -> isZ i s -> (0 <= n <= 1000000)%Z -> (1 <= i <= 1000000)%Z -> b_to_usize 53 1024 (Bdiv mode_NE r s) = Some (n / i)%Z.
Proof.
  intros (F & E) (F' & E') N I. set (k := (n / i)%Z). assert (K : (0 <= k /\ i * k <= n /\ n < i * k + i)%Z). { pose proof (Z.div_mod n i ltac:(lia)). pose proof (Z.mod_pos_bound n i ltac:(lia)). fold k in H. split; [apply Z.div_pos; lia|lia]. }
  assert (KN : (k <= n)%Z) by nia. assert (I1 : 1 <= IZR i <= 1000000) by (split; [apply (IZR_le 1)|apply (IZR_le _ 1000000)]; lia). assert (Ii : 0 < / IZR i) by (apply Rinv_0_lt_compat; lra).
  assert (T : IZR k <= IZR n / IZR i <= IZR k + 1 - / IZR i).
  { split; apply (Rmult_le_reg_r (IZR i)); try lra; unfold Rdiv; rewrite Rmult_assoc, Rinv_l by lra; rewrite Rmult_1_r.
    - rewrite <- mult_IZR. apply IZR_le. lia.
    - rewrite Rmult_minus_distr_r, Rinv_l by lra. rewrite <- (plus_IZR k 1), <- mult_IZR, <- minus_IZR. apply IZR_le. lia. }
  assert (KB : 0 <= IZR k <= 1000000) by (split; [apply (IZR_le 0)|apply (IZR_le _ 1000000)]; lia). assert (J : / 1000000 <= / IZR i) by (apply Rinv_le; lra).
  set (t := IZR n / IZR i) in *. pose proof (rnd_any 53 1024 t) as RR. rewrite (Rabs_pos_eq t) in RR by lra. pose proof u53 as [U0 U1].
  assert (UT : u * t <= / 9000000000000000 * 1000001) by (apply Rmult_le_compat; lra). destruct (CurveProofs.eta_le 53 1024 ltac:(lia)) as [H0 H1].
  assert (Zs : bpow radix2 (2 - 1024 - 53) <= / 100000000). { apply Rle_trans with (bpow radix2 (-30)); [apply bpow_le; lia|]. change (bpow radix2 (-30)) with (/ IZR (2 ^ 30)). apply Rinv_le; [lra|]. apply IZR_le. vm_compute. discriminate. }
  apply Rabs_le_inv in RR. assert (LO : IZR k <= rnd t) by (apply round_ge_generic; auto with typeclass_instances; [apply (int_format 53 1024), Z53; lia|apply T]).
  assert (HI : rnd t < IZR (k + 1)) by (rewrite plus_IZR; lra).
  destruct (fdiv 53 1024 r s F) as [G V]; [rewrite E'; lra| |].
  { rewrite E, E'. fold t. rewrite Rabs_pos_eq by lra. apply Rlt_le_trans with (IZR (k + 1)); [exact HI|]. left. eapply Rle_lt_trans; [apply Rle_abs|]. apply (int_lt_emax 53 1024), Z53. lia. }
  rewrite E, E' in V. fold t in V. assert (B : Btrunc (Bdiv mode_NE r s) = k) by (apply trunc_floor; [exact G|apply K|rewrite V; lra]).
  unfold b_to_usize. rewrite G, B. destruct (Z.leb_spec 0 k); [|lia]. destruct (Z.ltb_spec k 18446744073709551616); [reflexivity|lia].
Qed.

(* ---- integer grids ---- *)
Definition zgrid (a i : Z) (n : nat) : list Z := map (fun k => (a + Z.of_nat k * i)%Z) (seq 0 n).
Lemma zgrid_length a i n : length (zgrid a i n) = n. Proof. unfold zgrid. rewrite map_length, seq_length. reflexivity. Qed.
Lemma zgrid_S a i n : zgrid a i (S n) = a :: zgrid (a + i) i n.
Proof. unfold zgrid. cbn [seq map]. f_equal; [lia|]. rewrite <- seq_shift, map_map. apply map_ext. intro k. lia. Qed.
Lemma zgrid_app a i n m : zgrid a i (n + m) = zgrid a i n ++ zgrid (a + Z.of_nat n * i) i m.
Proof.
  revert a. induction n as [|n IH]; intro a; cbn [Nat.add]; [cbn [app zgrid]; unfold zgrid at 2; cbn [seq map app]; f_equal; lia|]. rewrite !zgrid_S, IH. cbn [app]. do 3 f_equal. lia.
Qed.
Lemma zgrid_in x a i n : In x (zgrid a i n) <-> exists k, (k < n)%nat /\ x = (a + Z.of_nat k * i)%Z.
Proof. unfold zgrid. rewrite in_map_iff. split; intros (k & A & B); exists k; [apply in_seq in B; split; [lia|auto]|split; [auto|apply in_seq; lia]]. Qed.
Lemma zgrid_sorted a i n : (0 < i)%Z -> StronglySorted Z.lt (zgrid a i n).
Proof.
  intro I. revert a. induction n as [|n IH]; intro a; [constructor|]. rewrite zgrid_S. constructor; [apply IH|]. apply Forall_forall. intros x H. apply zgrid_in in H. destruct H as (k & _ & ->). nia.
Qed.
Lemma grid_Z a i n : grid (IZR a) (IZR i) n = map IZR (zgrid a i n).
Proof. unfold grid, zgrid. rewrite map_map. apply map_ext. intro k. rewrite plus_IZR, mult_IZR, <- INR_IZR_INZ. reflexivity. Qed.
Lemma max_IZR' a b : IZR (Z.max a b) = Rmax (IZR a) (IZR b).
Proof. destruct (Z_le_gt_dec a b); [rewrite Z.max_r, Rmax_right by (try apply IZR_le; lia)|rewrite Z.max_l, Rmax_left by (try apply IZR_le; lia)]; reflexivity. Qed.
Lemma min_IZR' a b : IZR (Z.min a b) = Rmin (IZR a) (IZR b).
Proof. destruct (Z_le_gt_dec a b); [rewrite Z.min_l, Rmin_left by (try apply IZR_le; lia)|rewrite Z.min_r, Rmin_right by (try apply IZR_le; lia)]; reflexivity. Qed.
Lemma steps_Z a b i : (a <= b)%Z -> (0 < i)%Z -> steps (IZR a) (IZR b) (IZR i) = Z.to_nat ((b - a) / i).
Proof.
  intros H I. apply steps_unique; [apply (IZR_lt 0), I|]. assert (0 <= (b - a) / i)%Z by (apply Z.div_pos; lia). pose proof (Z.div_mod (b - a) i ltac:(lia)). pose proof (Z.mod_pos_bound (b - a) i I).
  rewrite S_INR, INR_IZR_INZ, Z2Nat.id by assumption. change 1 with (IZR 1). rewrite <- plus_IZR, <- !mult_IZR, <- !plus_IZR. split; [apply IZR_le|apply IZR_lt]; lia.
Qed.

(* ---- values close to exact values, at integer wavelengths ---- *)
Definition zr (d : list (Z * R)) : list (R * R) := map (fun p => (IZR (fst p), snd p)) d.
Definition zsorted (d : list (Z * R)) : Prop := StronglySorted (fun a b => (fst a < fst b)%Z) d.
(* e is the exact value, at most A; r is within c units of 2^-53 A of it *)
Definition vrel (A c : R) (e : R) (r : f64) : Prop := is_finite r = true /\ Rabs e <= A /\ Rabs (B2R r - e) <= c * (u * A).
Definition near (A c : R) (p : Z * R) (s : sample f64) : Prop := isZ (fst p) (s_nm s) /\ vrel A c (snd p) (s_v s).
Definition rel (A c : R) (d : list (Z * R)) (ss : list (sample f64)) : Prop := Forall2 (near A c) d ss.
Definition scale (A : R) : Prop := bpow radix2 (-900) <= A <= bpow radix2 900.
Lemma zr_fst d : map fst (zr d) = map IZR (map fst d). Proof. unfold zr. rewrite !map_map. reflexivity. Qed.
Lemma zr_length d : length (zr d) = length d. Proof. apply map_length. Qed.
Lemma zr_nth k d : nth k (zr d) (0, 0) = (IZR (fst (nth k d (0%Z, 0%R))), snd (nth k d (0%Z, 0%R))).
Proof. unfold zr. change (0, 0) with ((fun p : Z * R => (IZR (fst p), snd p)) (0%Z, 0%R)). rewrite map_nth. reflexivity. Qed.
Lemma zr_app d d' : zr (d ++ d') = zr d ++ zr d'. Proof. apply map_app. Qed.
Lemma zr_strictly d : zsorted d -> strictly (zr d).
Proof.
  unfold zsorted, strictly. induction 1 as [|p d S IH F]; [constructor|]. cbn [zr map]. constructor; [exact IH|]. apply Forall_map. apply Forall_impl with (2 := F). intros q H. apply IZR_lt, H.
Qed.
Lemma keys_sorted d : StronglySorted Z.lt (map fst d) -> zsorted d.
Proof. unfold zsorted. induction d as [|p d IH]; intro H; [constructor|]. cbn [map] in H. inversion H; subst. constructor; [apply IH; assumption|]. rewrite Forall_map in H3. exact H3. Qed.
Lemma scale_pos A : scale A -> 0 < A. Proof. intros [H _]. pose proof (bpow_gt_0 radix2 (-900)). lra. Qed.
Lemma vrel_weak A c c' e r : 0 <= A -> c <= c' -> vrel A c e r -> vrel A c' e r.
Proof. intros HA H (F & B & D). split; [exact F|]. split; [exact B|]. eapply Rle_trans; [exact D|]. apply Rmult_le_compat_r; [apply Rmult_le_pos; [apply bpow_ge_0|exact HA]|exact H]. Qed.
Lemma rel_length A c d ss : rel A c d ss -> length ss = length d. Proof. induction 1; cbn; congruence. Qed.
Lemma rel_nth A c d ss k : rel A c d ss -> (k < length d)%nat -> near A c (nth k d (0%Z, 0%R)) (nth k ss (zs 53 1024)).
Proof. intro H. revert k. induction H; intros k Hk; cbn in Hk; [lia|]. destruct k; cbn [nth]; [assumption|]. apply IHForall2. lia. Qed.
Lemma rel_app A c d ss d' ss' : rel A c d ss -> rel A c d' ss' -> rel A c (d ++ d') (ss ++ ss'). Proof. apply Forall2_app. Qed.
(* the float values as exact data *)
Lemma rel_reals A c d ss : rel A c d ss -> map fst (reals 53 1024 ss) = map fst (zr d) /\ (forall k, (k < length d)%nat -> Rabs (snd (nth k (reals 53 1024 ss) (0, 0)) - snd (nth k (zr d) (0, 0))) <= c * (u * A)).
Proof.
  intro H. split.
  - induction H as [|p s d ss [[_ I] _] H IH]; [reflexivity|]. unfold reals, zr in *. cbn [map fst]. f_equal; [exact I|exact IH].
  - intros k Hk. rewrite zr_nth. cbn [snd]. pose proof (rel_nth A c d ss k H Hk) as (_ & _ & _ & D). unfold reals. rewrite (nth_indep _ (0, 0) ((fun s => (B2R (s_nm s), B2R (s_v s))) (zs 53 1024))) by (rewrite map_length, (rel_length A c d ss H); exact Hk).
    rewrite (map_nth (fun s : sample f64 => (B2R (s_nm s), B2R (s_v s)))). exact D.
Qed.

Section F.
Context {K : XConst} (L : libm f64) (PI : powi5_ok 53 1024 (l_powi L)).
Notation ops := (b_ops 53 1024 L (b_of_Q 53 1024)).

Definition first_key (d : list (Z * R)) : Z := fst (nth 0 d (0%Z, 0%R)).
Definition last_key (d : list (Z * R)) : Z := fst (nth (length d - 1) d (0%Z, 0%R)).
Definition data (A c : R) (d : list (Z * R)) (ss : list (sample f64)) : Prop :=
  rel A c d ss /\ zsorted d /\ (6 <= length d)%nat /\ Forall small (map fst d) /\ scale A /\ 0 <= c <= 1000000.
Lemma cu_small c : 0 <= c <= 1000000 -> 0 <= c * u <= / 1000000000.
Proof. intros H. destruct u53 as [A B]. split; [apply Rmult_le_pos; lra|]. apply Rle_trans with (1000000 * / 9000000000000000); [apply Rmult_le_compat; lra|lra]. Qed.
Lemma rabs_le3 x y z : Rabs (x - z) <= Rabs (x - y) + Rabs (y - z).
Proof. replace (x - z) with ((x - y) + (y - z)) by ring. apply Rabs_triang. Qed.

Lemma eval_rel dbg A c d ss sh shx n x : data A c d ss -> isZ n x -> (first_key d <= n <= last_key d)%Z ->
  exists r y, (let! sp := @sprague_new _ ops (Vspd ss sh) in @sprague_evaluate _ ops dbg sp x) = Ret r
    /\ (let! sp := sprague_new (Vspd (FinSamps (zr d)) shx) in sprague_evaluate dbg sp (Fin (IZR n))) = Ret (Fin y) /\ vrel (89 / 64 * A) (c + 7551) y r.
Proof.
  intros (RL & SO & LE & SM & SC & CC) (FX & EX) [N1 N2]. pose proof (scale_pos A SC) as A0. pose proof (cu_small c CC) as CU. destruct u53 as [U0 U1]. destruct (rel_reals A c d ss RL) as [RF RD].
  pose proof (rel_length A c d ss RL) as LL. set (M := (1 + / 1000000000) * A). assert (MA : A <= M <= 1.01 * A) by (unfold M; lra).
  assert (LR : length (reals 53 1024 ss) = length d) by (unfold reals; rewrite map_length; exact LL).
  assert (KS : forall k, (k < length d)%nat -> small (fst (nth k d (0%Z, 0%R)))). { intros k Hk. rewrite Forall_map in SM. rewrite Forall_forall in SM. apply SM. apply nth_In, Hk. }
  assert (BND : forall e r, vrel A c e r -> Rabs (B2R r) <= M). { intros e r (_ & B & D). replace (B2R r) with ((B2R r - e) + e) by ring. eapply Rle_trans; [apply Rabs_triang|]. assert (c * u * A <= / 1000000000 * A) by (apply Rmult_le_compat_r; lra). unfold M. lra. }
  assert (ST : strictly (reals 53 1024 ss)).
  { pose proof (zr_strictly d SO) as S. unfold strictly in *. clear - RF S. revert RF S. generalize (zr d). generalize (reals 53 1024 ss). induction l as [|p l IH]; intros [|q m] E S; try discriminate; [constructor|]. cbn [map] in E. injection E as E1 E2. inversion S; subst. constructor; [apply (IH m); assumption|].
    rewrite Forall_forall in H2 |- *. intros z Hz. apply (in_map fst) in Hz. rewrite E2 in Hz. apply in_map_iff in Hz. destruct Hz as (w & Ew & Hw). rewrite <- Ew, E1. apply H2, Hw. }
  assert (TM : tame 53 1024 ss (bpow radix2 20) M).
  { split; [exact ST|]. split.
    - intros s Hs. apply (In_nth _ _ (zs 53 1024)) in Hs. destruct Hs as (k & Hk & <-). rewrite LL in Hk. pose proof (rel_nth A c d ss k RL Hk) as ((F & E) & V). split; [exact F|]. split; [rewrite E, <- abs_IZR; apply Rle_trans with (IZR 400000); [apply IZR_le, KS, Hk|change (bpow radix2 20) with 1048576; lra]|].
      split; [apply V|]. apply (BND _ _ V).
    - assert (T1 : bpow radix2 (2 - 1024) <= bpow radix2 (-900)) by (apply bpow_le; lia). assert (T2 : 2 * bpow radix2 900 <= bpow radix2 (1024 - 30)). { change 2 with (bpow radix2 1). rewrite <- bpow_plus. apply bpow_le. lia. } destruct SC as [S1 S2].
      split; [split; apply bpow_le; lia|lra]. }
  assert (IK : forall k, (k < length d)%nat -> isZ (fst (nth k d (0%Z, 0%R))) (s_nm (nth k ss (zs 53 1024)))) by (intros k Hk; apply (rel_nth A c d ss k RL Hk)).
  assert (C97 : sprague_close 53 1024 L (b_of_Q 53 1024)) by (apply C97_sprague, PI).
  pose proof (IK 0%nat ltac:(lia)) as I0. pose proof (IK 1%nat ltac:(lia)) as I1. pose proof (IK (length d - 1)%nat ltac:(lia)) as IL. 
  assert (LT : (fst (nth 0 d (0%Z, 0%R)) < fst (nth 1 d (0%Z, 0%R)))%Z). { apply lt_IZR. pose proof (strictly_nth (zr d) 0 1 (zr_strictly d SO) ltac:(lia) ltac:(rewrite zr_length; lia)) as H. rewrite !zr_nth in H. exact H. }
  destruct (C97 dbg ss sh (bpow radix2 20) M x TM ltac:(lia) FX) as (r & y1 & E1 & E2 & FR & B1 & _).
  - rewrite (proj2 I0), EX. apply IZR_le, N1.
  - rewrite EX, LL, (proj2 IL). destruct (Z_lt_le_dec n (last_key d)) as [H|H]; [left; apply IZR_lt, H|]. right. split; [f_equal; unfold last_key in *; lia|].
    pose proof (KS 0%nat ltac:(lia)). pose proof (KS 1%nat ltac:(lia)). pose proof (KS (length d - 1)%nat ltac:(lia)). unfold small in *.
    assert (ID : isZ (fst (nth 1 d (0%Z, 0%R)) - fst (nth 0 d (0%Z, 0%R))) (Bminus mode_NE (s_nm (nth 1 ss (zs 53 1024))) (s_nm (nth 0 ss (zs 53 1024))))) by (apply isZ_sub; [exact I1|exact I0|lia]).
    pose proof (isZ_add _ _ _ _ IL ID ltac:(lia)) as (_ & ->). apply IZR_lt. lia.
  - assert (XR : fst (nth 0 (zr d) (0, 0)) <= IZR n <= fst (nth (length (zr d) - 1) (zr d) (0, 0))) by (rewrite zr_length, !zr_nth; cbn [fst]; split; apply IZR_le; assumption).
    destruct (C98_perturbation dbg (zr d) (reals 53 1024 ss) shx (SpdShape (Fin 0) (Fin 0) Varying) (IZR n) (c * (u * A)) (zr_strictly d SO) RF ltac:(rewrite zr_length; exact LE) XR) as (y & y' & Y1 & Y2 & Y3).
    { intros k Hk. rewrite zr_length in Hk. rewrite Rabs_minus_sym. apply RD, Hk. }
    destruct (C98_range dbg (zr d) shx (IZR n) (- A) A (zr_strictly d SO) ltac:(rewrite zr_length; exact LE) XR) as (y2 & Y4 & Y5).
    { intros p Hp. apply Rabs_le_inv. apply (In_nth _ _ (0, 0)) in Hp. destruct Hp as (k & Hk & <-). rewrite zr_length in Hk. rewrite zr_nth. apply (rel_nth A c d ss k RL Hk). }
    unfold at_x in *. rewrite Y1 in Y4. injection Y4 as <-. rewrite EX in E2. unfold exactly in E2. rewrite Y2 in E2. injection E2 as <-.
    exists r, y. split; [exact E1|]. split; [exact Y1|]. split; [exact FR|]. split; [apply Rabs_le; lra|].
    eapply Rle_trans; [apply (rabs_le3 _ y')|]. rewrite (Rabs_minus_sym y' y). assert (UM : u * M = u * A * (1 + / 1000000000)) by (unfold M; ring). rewrite UM in B1. assert (0 < u * A) by (apply Rmult_lt_0_compat; lra). lra.
Qed.

(* a shape with integer start, end and interval *)
Definition rsh (s e i : Z) (sh : spd_shape f64) : Prop := isZ s (sh_start sh) /\ isZ e (sh_end sh) /\ exists v, sh_interval sh = Uniform v /\ isZ i v.
Notation zshape s e i := (shape (IZR s) (IZR e) (IZR i)).
Definition nsteps (a b i : Z) : nat := (Z.to_nat ((b - a) / i) + 1)%nat.
Lemma iter_rel a b i sh : rsh a b i sh -> small a -> small b -> (a <= b)%Z -> (1 <= i <= 1000000)%Z ->
  exists fs, @shape_iter _ ops sh = Ret fs /\ Forall2 isZ (zgrid a i (nsteps a b i)) fs /\ shape_iter (zshape a b i) = Ret (Fins (map IZR (zgrid a i (nsteps a b i)))).
Proof.
  intros (IA & IB & v & EV & IV) SA SB AB II. unfold small in *. pose proof (Z.div_pos (b - a) i ltac:(lia) ltac:(lia)) as D0. pose proof (Z.mul_div_le (b - a) i ltac:(lia)) as D1.
  unfold shape_iter at 1. rewrite EV. cbn [rto_usize b_ops rdiv rsub]. 
  rewrite (steps_float (b - a) i) by (try apply isZ_sub; try assumption; lia). cbn [unwrap obind]. eexists. split; [reflexivity|]. split.
  - unfold zgrid, nsteps. set (l := seq 0 _). assert (IN : forall k, In k l -> (Z.of_nat k * i <= b - a)%Z). { intros k Hk. apply in_seq in Hk. nia. } clearbody l. induction l as [|k l IH]; [constructor|]. cbn [map]. constructor; [|apply IH; intros; apply IN; now right].
    pose proof (IN k (or_introl eq_refl)). cbn [radd rmul b_ops]. unfold of_usize. cbn [rof_Z b_ops]. apply isZ_add; [exact IA| |nia]. apply isZ_mul; [apply isZ_of; nia|exact IV|nia].
  - rewrite shape_iter_fin; [|apply (IZR_lt 0); lia|apply IZR_le, AB|]. 
    + rewrite steps_Z by lia. rewrite grid_Z. reflexivity.
    + unfold countable. assert (1 <= IZR i) by (apply (IZR_le 1); lia). apply (Rmult_lt_reg_r (IZR i)); [lra|]. unfold Rdiv. rewrite Rmult_assoc, Rinv_l by lra. rewrite <- minus_IZR. assert (IZR (b - a) <= 1000000) by (apply (IZR_le _ 1000000); lia). nra.
Qed.

Lemma omap_rel dbg A c d ss sh shx sp spx : data A c d ss -> @sprague_new _ ops (Vspd ss sh) = Ret sp -> sprague_new (Vspd (FinSamps (zr d)) shx) = Ret spx ->
  forall zl fs, Forall2 isZ zl fs -> Forall (fun n => (first_key d <= n <= last_key d)%Z) zl ->
  exists ss' d', omap (fun nm => let! v := @sprague_evaluate _ ops dbg sp nm in Ret (Sample nm v)) fs = Ret ss'
    /\ omap (fun nm => let! v := sprague_evaluate dbg spx nm in Ret (Sample nm v)) (Fins (map IZR zl)) = Ret (FinSamps (zr d')) /\ map fst d' = zl /\ rel (89 / 64 * A) (c + 7551) d' ss'.
Proof.
  intros DA E1 E2 zl fs H. induction H as [|n x zl fs I H IH]; intro B; [exists [], []; repeat split; constructor|].
  inversion B as [|? ? B1 B2]; subst. destruct (IH B2) as (ss' & d' & A1 & A2 & A3 & A4). destruct (eval_rel dbg A c d ss sh shx n x DA I B1) as (r & y & R1 & R2 & R3). rewrite E1 in R1. rewrite E2 in R2. cbn [obind] in R1, R2.
  exists (Sample x r :: ss'), ((n, y) :: d'). cbn [omap Fins map]. unfold Fins in A2. rewrite R1, R2. cbn [obind]. rewrite A1, A2. cbn [obind]. split; [reflexivity|]. split; [reflexivity|]. split; [cbn [map fst]; f_equal; exact A3|]. constructor; [split; assumption|exact A4].
Qed.
Lemma interpolate_rel dbg A c d ss sh s e iv tgt a b i : data A c d ss -> isZ s (sh_start sh) -> isZ e (sh_end sh) -> (first_key d <= s)%Z -> (e <= last_key d)%Z ->
  rsh a b i tgt -> small a -> small b -> (1 <= i <= 1000000)%Z -> (Z.max a s <= Z.min b e)%Z ->
  exists ss' sh' d', @vspd_interpolate _ ops dbg (Vspd ss sh) tgt = Ret (Vspd ss' sh') /\ rsh (Z.max a s) (Z.min b e) i sh'
    /\ vspd_interpolate dbg (Vspd (FinSamps (zr d)) (SpdShape (Fin (IZR s)) (Fin (IZR e)) iv)) (zshape a b i) = Ret (Vspd (FinSamps (zr d')) (zshape (Z.max a s) (Z.min b e) i))
    /\ map fst d' = zgrid (Z.max a s) i (nsteps (Z.max a s) (Z.min b e) i) /\ rel (89 / 64 * A) (c + 7551) d' ss'.
Proof.
  intros DA IS IE S1 E1 (IA & IB & v & EV & IV) SA SB II LE. pose proof DA as (RL & SO & LN & SM & _).
  assert (KS : forall k, (k < length d)%nat -> small (fst (nth k d (0%Z, 0%R)))). { intros k Hk. rewrite Forall_map in SM. rewrite Forall_forall in SM. apply SM. apply nth_In, Hk. }
  pose proof (KS 0%nat ltac:(lia)) as K0. pose proof (KS (length d - 1)%nat ltac:(lia)) as K1. unfold small, first_key, last_key in *. fold (small a) (small b) in *.
  pose proof (isZ_max _ _ _ _ IA IS) as IM. pose proof (isZ_min _ _ _ _ IB IE) as IN.
  set (sh' := SpdShape (b_max 53 1024 (sh_start tgt) (sh_start sh)) (b_min 53 1024 (sh_end tgt) (sh_end sh)) (sh_interval tgt)).
  assert (RS : rsh (Z.max a s) (Z.min b e) i sh') by (split; [exact IM|split; [exact IN|exists v; split; assumption]]).
  destruct (iter_rel _ _ _ sh' RS) as (fs & F1 & F2 & F3); [unfold small in *; lia|unfold small in *; lia|exact LE|exact II|].
  set (shx := SpdShape (Fin (IZR s)) (Fin (IZR e)) iv).
  assert (SP : exists sp spx, @sprague_new _ ops (Vspd ss sh) = Ret sp /\ sprague_new (Vspd (FinSamps (zr d)) shx) = Ret spx).
  { destruct (eval_rel dbg A c d ss sh shx _ _ DA IM) as (r & y & R1 & R2 & _); [unfold first_key, last_key, small in *; lia|]. destruct (@sprague_new _ ops (Vspd ss sh)) as [sp| |]; try discriminate. destruct (sprague_new (Vspd (FinSamps (zr d)) shx)) as [spx| |]; try discriminate. eexists _, _. split; reflexivity. }
  destruct SP as (sp & spx & P1 & P2).
  destruct (omap_rel dbg A c d ss sh shx sp spx DA P1 P2 _ fs F2) as (ss' & d' & M1 & M2 & M3 & M4).
  { apply Forall_forall. intros n Hn. apply zgrid_in in Hn. destruct Hn as (k & Hk & ->). unfold nsteps in Hk. pose proof (Z.mul_div_le (Z.min b e - Z.max a s) i ltac:(lia)). pose proof (Z.div_pos (Z.min b e - Z.max a s) i ltac:(lia) ltac:(lia)). unfold first_key, last_key. nia. }
  exists ss', sh', d'. change (@vspd_interpolate _ ops dbg (Vspd ss sh) tgt) with (let! interp := @sprague_new _ ops (Vspd ss sh) in let! nms := @shape_iter _ ops sh' in let! samples := omap (fun nm => let! v := @sprague_evaluate _ ops dbg interp nm in Ret (Sample nm v)) nms in Ret (Vspd samples sh')).
  rewrite P1. cbn [obind]. rewrite F1. cbn [obind]. rewrite M1. split; [reflexivity|]. split; [exact RS|]. split; [|split; assumption].
  unfold vspd_interpolate. rewrite P2. cbn [obind v_start v_end v_shape sh_start sh_end sh_interval shape shx]. rewrite x_max, x_min, <- max_IZR', <- min_IZR'. change (SpdShape (Fin ?p) (Fin ?q) (Uniform (Fin ?r))) with (shape p q r). rewrite F3. cbn [obind]. rewrite M2. reflexivity.
Qed.

(* ---- extrapolate ---- *)
Lemma while_rel (cf : f64 -> bool) (cx : xr -> bool) (cz : Z -> bool) spf spx A c bound i v : (forall n x, isZ n x -> cf x = cz n) -> (forall n, cx (Fin (IZR n)) = cz n) -> (forall n, (bound <= n)%Z -> cz n = false) ->
  (forall n x, isZ n x -> exists r y, @extrapolator_evaluate _ ops spf x = Ret r /\ extrapolator_evaluate spx (Fin (IZR n)) = Ret (Fin y) /\ vrel A c y r) ->
  isZ i v -> (1 <= i <= 1000000)%Z -> (Z.abs bound <= 3000000)%Z -> forall fuel n x, isZ n x -> (- 3000000 <= n <= 5000000)%Z -> (bound - n <= Z.of_nat fuel)%Z ->
  exists ss' d' k, @extrap_while _ ops fuel cf spf v x = Ret ss' /\ extrap_while fuel cx spx (Fin (IZR i)) (Fin (IZR n)) = Ret (FinSamps (zr d')) /\ rel A c d' ss'
    /\ map fst d' = zgrid n i k /\ (forall j, (j < k)%nat -> cz (n + Z.of_nat j * i)%Z = true) /\ cz (n + Z.of_nat k * i)%Z = false.
Proof.
  intros CF CX CZ EV IV II BB. induction fuel as [|fuel IH]; intros n x IX NN FU.
  - exists [], [], 0%nat. cbn [extrap_while]. rewrite (CF n x IX), (CX n), (CZ n) by lia. repeat split; try constructor; [intros; lia|]. rewrite Z.add_0_r. apply CZ. lia.
  - cbn [extrap_while]. rewrite (CF n x IX), (CX n). destruct (cz n) eqn:Cn.
    + assert (Nb : (n < bound)%Z) by (destruct (Z_lt_le_dec n bound) as [H|H]; [exact H|rewrite (CZ n H) in Cn; discriminate]).
      destruct (EV n x IX) as (r & y & E1 & E2 & E3). rewrite E1, E2. cbn [obind]. destruct (IH (n + i)%Z (Bplus mode_NE x v)) as (ss' & d' & k & W1 & W2 & W3 & W4 & W5 & W6); [apply isZ_add; [exact IX|exact IV|lia]|lia|lia|].
      exists (Sample x r :: ss'), ((n, y) :: d'), (Datatypes.S k). cbn [radd b_ops]. rewrite W1, x_add, <- plus_IZR, W2. cbn [obind]. split; [reflexivity|]. split; [reflexivity|]. split; [constructor; [split; assumption|exact W3]|].
      split; [cbn [map fst]; rewrite W4, zgrid_S; reflexivity|]. split.
      * intros [|j] Hj; [rewrite Z.add_0_r; exact Cn|]. replace (n + Z.of_nat (Datatypes.S j) * i)%Z with (n + i + Z.of_nat j * i)%Z by lia. apply W5. lia.
      * replace (n + Z.of_nat (Datatypes.S k) * i)%Z with (n + i + Z.of_nat k * i)%Z by lia. exact W6.
    + exists [], [], 0%nat. repeat split; try constructor; [intros; lia|]. rewrite Z.add_0_r. exact Cn.
Qed.
Lemma first_rel A c d ss : rel A c d ss -> d <> [] -> exists s, first_opt ss = Some s /\ near A c (nth 0 d (0%Z, 0%R)) s /\ first_opt (FinSamps (zr d)) = Some (Sample (Fin (IZR (first_key d))) (Fin (snd (nth 0 d (0%Z, 0%R))))).
Proof. intros H N. destruct H as [|p s d ss P H]; [contradiction|]. exists s. split; [reflexivity|]. split; [exact P|reflexivity]. Qed.
Lemma last_rel A c d ss : rel A c d ss -> d <> [] -> exists s, last_opt ss = Some s /\ near A c (nth (length d - 1) d (0%Z, 0%R)) s /\ last_opt (FinSamps (zr d)) = Some (Sample (Fin (IZR (last_key d))) (Fin (snd (nth (length d - 1) d (0%Z, 0%R))))).
Proof.
  intros H N. assert (L0 : (0 < length d)%nat) by (destruct d; [contradiction|cbn; lia]). pose proof (rel_length A c d ss H) as LL. exists (nth (length d - 1) ss (zs 53 1024)). split; [|split].
  - rewrite (last_opt_nth ss (zs 53 1024)) by (intro E; rewrite E in LL; cbn in LL; lia). rewrite LL. reflexivity.
  - apply (rel_nth A c d ss _ H). lia.
  - unfold FinSamps, zr. rewrite map_map, last_opt_map, (last_opt_nth d (0%Z, 0%R) N). reflexivity.
Qed.
Lemma hold_rel A c d ss sh shx n x : rel A c d ss -> d <> [] -> isZ n x ->
  exists r y, @extrapolator_evaluate _ ops (Vspd ss sh) x = Ret r /\ extrapolator_evaluate (Vspd (FinSamps (zr d)) shx) (Fin (IZR n)) = Ret (Fin y) /\ vrel A c y r.
Proof.
  intros H N IX. destruct (first_rel A c d ss H N) as (f & F1 & (F2 & F3) & F4). destruct (last_rel A c d ss H N) as (l & L1 & (L2 & L3) & L4). unfold extrapolator_evaluate, v_first, v_last. cbn [v_samples]. rewrite F1, L1, F4, L4. cbn [unwrap obind s_nm s_v].
  cbn [rlt b_ops]. rewrite (isZ_lt n (first_key d) x (s_nm f) IX F2), x_lt. unfold Rltb. destruct (Z.ltb_spec n (first_key d)) as [Lt|Ge].
  - destruct (Rlt_dec (IZR n) (IZR (first_key d))) as [_|B]; [|exfalso; apply B, IZR_lt, Lt]. eexists _, _. split; [reflexivity|]. split; [reflexivity|exact F3].
  - destruct (Rlt_dec (IZR n) (IZR (first_key d))) as [B|_]; [exfalso; apply lt_IZR in B; lia|]. eexists _, _. split; [reflexivity|]. split; [reflexivity|exact L3].
Qed.
(* after interpolate: the spectrum starts at a' >= a and says it ends at b' <= b *)
Lemma extrapolate_rel fuel A c d ss sh tgt a' b' a b i : rel A c d ss -> d <> [] -> rsh a' b' i sh -> rsh a b i tgt -> small a -> small b -> (a <= a')%Z -> (a' <= b')%Z -> (b' <= b)%Z -> (1 <= i <= 1000000)%Z -> (b - a <= Z.of_nat fuel)%Z ->
  exists ss' sh' pre post kp kq, @vspd_extrapolate _ ops fuel (Vspd ss sh) tgt = Ret (Vspd ss' sh') /\ rsh a b i sh'
    /\ vspd_extrapolate fuel (Vspd (FinSamps (zr d)) (zshape a' b' i)) (zshape a b i) = Ret (Vspd (FinSamps (zr (pre ++ d ++ post))) (zshape a b i))
    /\ rel A c (pre ++ d ++ post) ss' /\ map fst pre = zgrid a i kp /\ map fst post = zgrid (b' + i) i kq
    /\ (forall j, (j < kp)%nat -> (a + Z.of_nat j * i < a')%Z) /\ (a' <= a + Z.of_nat kp * i)%Z /\ (forall j, (j < kq)%nat -> (b' + i + Z.of_nat j * i <= b)%Z) /\ (b < b' + i + Z.of_nat kq * i)%Z.
Proof.
  intros RL N (IA' & IB' & v & EV & IV) (IA & IB & w & EW & IW) SA SB H1 H2 H3 II FU. unfold small in *.
  assert (MN : isZ a (b_min 53 1024 (sh_start sh) (sh_start tgt))) by (rewrite <- (Z.min_r a' a) by lia; apply isZ_min; assumption).
  assert (MX : isZ b (b_max 53 1024 (sh_end sh) (sh_end tgt))) by (rewrite <- (Z.max_r b' b) by lia; apply isZ_max; assumption).
  set (spf := Vspd ss sh). set (spx := Vspd (FinSamps (zr d)) (zshape a' b' i)).
  destruct (while_rel (fun x => Bltb x (sh_start sh)) (fun x => rlt x (Fin (IZR a'))) (fun n => (n <? a')%Z) spf spx A c a' i v) with (fuel := fuel) (n := a) (x := b_min 53 1024 (sh_start sh) (sh_start tgt))
    as (s1 & d1 & k1 & W1 & W2 & W3 & W4 & W5 & W6); [intros n x IX; apply (isZ_lt n a'); assumption| |intros n Hn; apply Z.ltb_ge; lia|intros n x IX; apply hold_rel; assumption|exact IV|exact II|lia|exact MN|lia|lia|].
  { intro n. rewrite x_lt. unfold Rltb. destruct (Rlt_dec (IZR n) (IZR a')) as [B|B]; symmetry; [apply Z.ltb_lt, lt_IZR, B|apply Z.ltb_ge, le_IZR; lra]. }
  destruct (while_rel (fun x => Bleb x (b_max 53 1024 (sh_end sh) (sh_end tgt))) (fun x => rle x (Fin (IZR b))) (fun n => (n <=? b)%Z) spf spx A c (b + 1) i v) with (fuel := fuel) (n := (b' + i)%Z) (x := Bplus mode_NE (sh_end sh) v)
    as (s2 & d2 & k2 & X1 & X2 & X3 & X4 & X5 & X6); [intros n x IX; apply (isZ_le n b); assumption| |intros n Hn; apply Z.leb_gt; lia|intros n x IX; apply hold_rel; assumption|exact IV|exact II|lia|apply isZ_add; [exact IB'|exact IV|lia]|lia|lia|].
  { intro n. rewrite x_le. unfold Rleb. destruct (Rle_dec (IZR n) (IZR b)) as [B|B]; symmetry; [apply Z.leb_le, le_IZR, B|apply Z.leb_gt, lt_IZR; lra]. }
  exists (s1 ++ ss ++ s2), (shape_new (sh_start tgt) (sh_end tgt) v), d1, d2, k1, k2.
  split; [unfold vspd_extrapolate, v_interval, v_start, v_end; cbn [v_shape spf]; fold spf; rewrite EV; cbn [obind rmin rmax radd rlt rle b_ops]; fold spf; change (@extrap_while (binary_float 53 1024) ops) with (@extrap_while _ ops); rewrite W1; cbn [obind]; rewrite X1; reflexivity|].
  split; [split; [exact IA|split; [exact IB|exists v; split; [reflexivity|exact IV]]]|]. split.
  { change (vspd_extrapolate fuel spx (zshape a b i)) with (let! before := extrap_while fuel (fun x => rlt x (Fin (IZR a'))) spx (Fin (IZR i)) (rmin (Fin (IZR a')) (Fin (IZR a))) in
      let! after := extrap_while fuel (fun x => rle x (rmax (Fin (IZR b')) (Fin (IZR b)))) spx (Fin (IZR i)) (radd (Fin (IZR b')) (Fin (IZR i))) in Ret (Vspd (before ++ FinSamps (zr d) ++ after) (zshape a b i))).
    rewrite x_min, x_max, x_add, Rmin_right, Rmax_right by (apply IZR_le; assumption). rewrite <- plus_IZR, W2. cbn [obind]. rewrite X2. cbn [obind v_samples]. unfold FinSamps, zr. rewrite !map_app. reflexivity. }
  split; [apply rel_app; [exact W3|apply rel_app; [exact RL|exact X3]]|]. split; [exact W4|]. split; [exact X4|]. split; [intros j Hj; apply Z.ltb_lt, W5, Hj|]. split; [apply Z.ltb_ge, W6|]. split; [intros j Hj; apply Z.leb_le, X5, Hj|apply Z.leb_gt, X6].
Qed.

Lemma align_rel dbg fuel A c d ss sh s e iv tgt a b i : data A c d ss -> isZ s (sh_start sh) -> isZ e (sh_end sh) -> (first_key d <= s)%Z -> (e <= last_key d)%Z ->
  rsh a b i tgt -> small a -> small b -> (1 <= i <= 1000000)%Z -> (Z.max a s <= Z.min b e)%Z -> (b - a <= Z.of_nat fuel)%Z ->
  exists ss' sh' d', @vspd_align _ ops dbg fuel (Vspd ss sh) tgt = Ret (Vspd ss' sh') /\ rsh a b i sh'
    /\ vspd_align dbg fuel (Vspd (FinSamps (zr d)) (SpdShape (Fin (IZR s)) (Fin (IZR e)) iv)) (zshape a b i) = Ret (Vspd (FinSamps (zr d')) (zshape a b i))
    /\ rel (89 / 64 * A) (c + 7551) d' ss' /\ (i = 1%Z -> map fst d' = zgrid a 1 (Z.to_nat (b - a) + 1)) /\ (Z.of_nat (length d') * i <= b - a + 2 * i)%Z.
Proof.
  intros DA IS IE S1 E1 RT SA SB II LE FU.
  destruct (interpolate_rel dbg A c d ss sh s e iv tgt a b i DA IS IE S1 E1 RT SA SB II LE) as (ss' & sh' & d' & T1 & T2 & T3 & T4 & T5).
  assert (LD : length d' = nsteps (Z.max a s) (Z.min b e) i) by (rewrite <- (map_length fst d'), T4; apply zgrid_length).
  assert (ND : d' <> []) by (intro E; rewrite E in LD; unfold nsteps in LD; cbn in LD; lia).
  destruct (extrapolate_rel fuel _ _ d' ss' sh' tgt (Z.max a s) (Z.min b e) a b i T5 ND T2 RT SA SB) as (s2 & sh2 & pre & post & kp & kq & X1 & X2 & X3 & X4 & X5 & X6 & X7 & X8 & X9 & X10); [lia|exact LE|lia|exact II|exact FU|].
  exists s2, sh2, (pre ++ d' ++ post). unfold vspd_align. rewrite T1, T3. cbn [obind]. split; [exact X1|]. split; [exact X2|]. split; [exact X3|]. split; [exact X4|].
  assert (LP : length pre = kp) by (rewrite <- (map_length fst pre), X5; apply zgrid_length). assert (LQ : length post = kq) by (rewrite <- (map_length fst post), X6; apply zgrid_length).
  pose proof (Z.div_pos (Z.min b e - Z.max a s) i ltac:(lia) ltac:(lia)) as D0. pose proof (Z.mul_div_le (Z.min b e - Z.max a s) i ltac:(lia)) as D1. split.
  - intros ->. rewrite !map_app, X5, T4, X6. unfold nsteps. rewrite Z.div_1_r. rewrite !Z.mul_1_r in *.
    assert (KP : Z.of_nat kp = (Z.max a s - a)%Z). { destruct kp as [|kp]; [lia|]. specialize (X7 kp ltac:(lia)). lia. }
    assert (KQ : Z.of_nat kq = (b - Z.min b e)%Z). { destruct kq as [|kq]; [lia|]. specialize (X9 kq ltac:(lia)). lia. }
    replace (Z.to_nat (b - a) + 1)%nat with (kp + ((Z.to_nat (Z.min b e - Z.max a s) + 1) + kq))%nat by lia. rewrite (zgrid_app a 1 kp), (zgrid_app _ 1 (Z.to_nat (Z.min b e - Z.max a s) + 1)). replace (a + Z.of_nat kp * 1)%Z with (Z.max a s) by lia. replace (Z.max a s + Z.of_nat (Z.to_nat (Z.min b e - Z.max a s) + 1) * 1)%Z with (Z.min b e + 1)%Z by lia. reflexivity.
  - rewrite !app_length, LD, LP, LQ. unfold nsteps. assert (P1 : (Z.of_nat kp * i <= Z.max a s - a + i)%Z). { destruct kp as [|kp]; [lia|]. specialize (X7 kp ltac:(lia)). lia. }
    assert (Q1 : (Z.of_nat kq * i <= b - Z.min b e)%Z). { destruct kq as [|kq]; [lia|]. specialize (X9 kq ltac:(lia)). lia. }
    rewrite !Nat2Z.inj_add, Z2Nat.id by exact D0. lia.
Qed.
Lemma aligned_data A c d ss a b : rel A c d ss -> map fst d = zgrid a 1 (Z.to_nat (b - a) + 1) -> small a -> small b -> (a + 5 <= b)%Z -> scale A -> 0 <= c <= 1000000 ->
  data A c d ss /\ first_key d = a /\ last_key d = b.
Proof.
  intros RL KE SA SB AB SC CC. assert (LD : length d = (Z.to_nat (b - a) + 1)%nat) by (rewrite <- (map_length fst d), KE; apply zgrid_length).
  assert (KN : forall k, (k < length d)%nat -> fst (nth k d (0%Z, 0%R)) = (a + Z.of_nat k)%Z). { intros k Hk. change (fst (nth k d (0%Z, 0%R))) with (fst (nth k d (0%Z, 0%R))). rewrite <- (map_nth fst), KE. unfold zgrid. rewrite (nth_indep _ _ ((fun k => (a + Z.of_nat k * 1)%Z) 0%nat)) by (rewrite map_length, seq_length; lia).
    rewrite (map_nth (fun k => (a + Z.of_nat k * 1)%Z)), seq_nth by lia. lia. }
  split; [|unfold first_key, last_key; rewrite !KN by lia; lia]. split; [exact RL|]. split; [apply keys_sorted; rewrite KE; apply zgrid_sorted; lia|]. split; [lia|]. split; [|split; assumption].
  rewrite KE. apply Forall_forall. intros n Hn. apply zgrid_in in Hn. destruct Hn as (k & Hk & ->). unfold small in *. lia.
Qed.

(* ---- products and sums ---- *)
Lemma scale_eta A : scale A -> bpow radix2 (2 - 1024 - 53) <= / 1000 * (u * A).
Proof.
  intros [H _]. destruct u53 as [U0 _]. replace (2 - 1024 - 53)%Z with (-122 + (Z.opp 53 + -900))%Z by lia. rewrite !bpow_plus. apply Rmult_le_compat; [apply bpow_ge_0|apply Rmult_le_pos; apply bpow_ge_0| |apply Rmult_le_compat_l; [lra|exact H]].
  apply Rle_trans with (bpow radix2 (-10)); [apply bpow_le; lia|]. change (/ 1024 <= / 1000). lra.
Qed.
Lemma scale_below A t : scale A -> Rabs t <= 1000000 * A -> Rabs (rnd t) < bpow radix2 1024.
Proof.
  intros SC H. pose proof (rnd_any 53 1024 t) as RR. pose proof (scale_eta A SC) as ET. pose proof (scale_pos A SC) as A0. destruct u53 as [U0 U1]. pose proof (Rabs_pos t).
  assert (u * Rabs t <= 1 * Rabs t) by (apply Rmult_le_compat_r; lra). assert (u * A <= 1 * A) by (apply Rmult_le_compat_r; lra).
  replace (rnd t) with ((rnd t - t) + t) by ring. eapply Rle_lt_trans; [apply Rabs_triang|]. apply Rle_lt_trans with (3000000 * A); [lra|].
  destruct SC as [_ SC]. apply Rle_lt_trans with (bpow radix2 22 * bpow radix2 900); [apply Rmult_le_compat; try lra; change (bpow radix2 22) with 4194304; lra|]. rewrite <- bpow_plus. apply bpow_lt. lia.
Qed.
Lemma mult_rel A A' c c' e e' r r' : vrel A c e r -> vrel A' c' e' r' -> scale (A * A') -> 0 < A -> 0 < A' -> 0 <= c <= 1000000 -> 0 <= c' <= 1000000 -> vrel (A * A') (c + c' + 2) (e * e') (Bmult mode_NE r r').
Proof.
  intros (F & B & D) (F' & B' & D') SC A0 A0' CC CC'. destruct u53 as [U0 U1]. pose proof (cu_small c CC) as CU. pose proof (cu_small c' CC') as CU'.
  assert (UA : 0 < u * (A * A')) by (apply Rmult_lt_0_compat; [lra|apply Rmult_lt_0_compat; assumption]).
  assert (X : Rabs (B2R r * B2R r' - e * e') <= (c + c' + / 1000) * (u * (A * A'))).
  { replace (B2R r * B2R r' - e * e') with ((B2R r - e) * (B2R r' - e') + e * (B2R r' - e') + e' * (B2R r - e)) by ring. eapply Rle_trans; [apply Rabs_triang|]. eapply Rle_trans; [apply Rplus_le_compat_r, Rabs_triang|]. rewrite !Rabs_mult.
    assert (Rabs (B2R r - e) * Rabs (B2R r' - e') <= c * (u * A) * (c' * (u * A'))) by (apply Rmult_le_compat; try apply Rabs_pos; assumption).
    assert (c * (u * A) * (c' * (u * A')) <= / 1000 * (u * (A * A'))). { replace (c * (u * A) * (c' * (u * A'))) with (c * (c' * u) * (u * (A * A'))) by ring. apply Rmult_le_compat_r; [lra|]. apply Rle_trans with (1000000 * / 1000000000); [apply Rmult_le_compat; lra|lra]. }
    assert (Rabs e * Rabs (B2R r' - e') <= A * (c' * (u * A'))) by (apply Rmult_le_compat; try apply Rabs_pos; assumption). assert (Rabs e' * Rabs (B2R r - e) <= A' * (c * (u * A))) by (apply Rmult_le_compat; try apply Rabs_pos; assumption). lra. }
  assert (EE : Rabs (e * e') <= A * A') by (rewrite Rabs_mult; apply Rmult_le_compat; try apply Rabs_pos; assumption).
  assert (SM : (c + c' + / 1000) * (u * (A * A')) <= / 1000 * (A * A')). { rewrite <- Rmult_assoc. apply Rmult_le_compat_r; [left; apply Rmult_lt_0_compat; assumption|]. replace ((c + c' + / 1000) * u) with (c * u + c' * u + / 1000 * u) by ring. lra. }
  assert (P : Rabs (B2R r * B2R r') <= 1.001 * (A * A')). { replace (B2R r * B2R r') with ((B2R r * B2R r' - e * e') + e * e') by ring. eapply Rle_trans; [apply Rabs_triang|]. lra. }
  assert (PP : 0 < A * A') by (apply Rmult_lt_0_compat; assumption).
  assert (G : is_finite (Bmult mode_NE r r') = true) by (apply mult_small; try assumption; apply (scale_below (A * A') _ SC); lra).
  split; [exact G|]. split; [exact EE|]. pose proof (mult_fin 53 1024 _ _ G) as (_ & _ & V). rewrite V. pose proof (rnd_any 53 1024 (B2R r * B2R r')) as RR. pose proof (scale_eta _ SC) as ET.
  assert (u * Rabs (B2R r * B2R r') <= u * (1.001 * (A * A'))) by (apply Rmult_le_compat_l; lra). eapply Rle_trans; [apply (rabs_le3 _ (B2R r * B2R r'))|]. lra.
Qed.
(* left-to-right sums of at most 1000 terms *)
Lemma sum_rel A c : scale A -> 0 <= c <= 1000000 -> forall es rs, Forall2 (vrel A c) es rs -> forall k e0 r0, (k + length es <= 1000)%nat -> is_finite r0 = true -> Rabs e0 <= INR k * A -> Rabs (B2R r0 - e0) <= INR k * (c + INR k + 1) * (u * A) ->
  let n := (k + length es)%nat in is_finite (fold_left (Bplus mode_NE) rs r0) = true /\ Rabs (fold_left Rplus es e0) <= INR n * A /\ Rabs (B2R (fold_left (Bplus mode_NE) rs r0) - fold_left Rplus es e0) <= INR n * (c + INR n + 1) * (u * A).
Proof.
  intros SC CC es rs H. pose proof (scale_pos A SC) as A0. destruct u53 as [U0 U1]. pose proof (cu_small c CC) as CU. pose proof (scale_eta A SC) as ET. assert (UA : 0 < u * A) by (apply Rmult_lt_0_compat; lra).
  induction H as [|e r es rs (F & B & D) H IH]; intros k e0 r0 Hk F0 B0 D0; [cbn [length fold_left]; rewrite Nat.add_0_r; auto|].
  cbn [length fold_left] in *. replace (k + Datatypes.S (length es))%nat with (Datatypes.S k + length es)%nat by lia.
  assert (KB : 0 <= INR k <= 999). { split; [apply pos_INR|]. replace 999 with (INR 999) by (rewrite INR_IZR_INZ; reflexivity). apply le_INR. lia. }
  assert (ES : Rabs (e0 + e) <= (INR k + 1) * A) by (eapply Rle_trans; [apply Rabs_triang|]; lra).
  assert (DS : Rabs (B2R r0 + B2R r - (e0 + e)) <= (INR k * (c + INR k + 1) + c) * (u * A)) by (replace (B2R r0 + B2R r - (e0 + e)) with ((B2R r0 - e0) + (B2R r - e)) by ring; eapply Rle_trans; [apply Rabs_triang|]; lra).
  assert (CK : 0 <= INR k * (c + INR k + 1) + c <= 1000 * (c + 1000)) by nra.
  assert (SS : (INR k * (c + INR k + 1) + c) * (u * A) <= / 100 * A). { rewrite <- Rmult_assoc. apply Rmult_le_compat_r; [lra|]. apply Rle_trans with (1000 * (c + 1000) * u); [apply Rmult_le_compat_r; lra|]. replace (1000 * (c + 1000) * u) with (1000 * (c * u) + 1000000 * u) by ring. lra. }
  assert (PP : Rabs (B2R r0 + B2R r) <= (INR k + 1.01) * A). { replace (B2R r0 + B2R r) with ((B2R r0 + B2R r - (e0 + e)) + (e0 + e)) by ring. eapply Rle_trans; [apply Rabs_triang|]. lra. }
  assert (KA : INR k * A <= 999 * A) by (apply Rmult_le_compat_r; lra).
  assert (G : is_finite (Bplus mode_NE r0 r) = true) by (apply plus_small; try assumption; apply (scale_below A _ SC); lra).
  pose proof (plus_fin 53 1024 _ _ G) as (_ & _ & V). pose proof (rnd_any 53 1024 (B2R r0 + B2R r)) as RR. assert (UP : u * Rabs (B2R r0 + B2R r) <= u * ((INR k + 1.01) * A)) by (apply Rmult_le_compat_l; lra).
  apply IH; [lia|exact G|rewrite S_INR; exact ES|]. rewrite S_INR, V. eapply Rle_trans; [apply (rabs_le3 _ (B2R r0 + B2R r))|]. assert (0 <= INR k * (u * A)) by (apply Rmult_le_pos; lra). lra.
Qed.

Lemma mult_rel2 A A' c c' e e' r r' : vrel A c e r -> vrel A' c' e' r' -> scale (A * A') -> 0 < A -> 0 < A' -> 0 <= c * u <= / 100 -> 0 <= c -> 0 <= c' <= 1000000 -> vrel (A * A') (1.02 * (c + c') + 2) (e * e') (Bmult mode_NE r r').
Proof.
  intros (F & B & D) (F' & B' & D') SC A0 A0' CU C0 CC'. destruct u53 as [U0 U1]. pose proof (cu_small c' CC') as CU'. assert (PP : 0 < A * A') by (apply Rmult_lt_0_compat; assumption).
  assert (UA : 0 < u * (A * A')) by (apply Rmult_lt_0_compat; lra).
  assert (X : Rabs (B2R r * B2R r' - e * e') <= (1.01 * (c + c')) * (u * (A * A'))).
  { replace (B2R r * B2R r' - e * e') with ((B2R r - e) * (B2R r' - e') + e * (B2R r' - e') + e' * (B2R r - e)) by ring. eapply Rle_trans; [apply Rabs_triang|]. eapply Rle_trans; [apply Rplus_le_compat_r, Rabs_triang|]. rewrite !Rabs_mult.
    assert (Rabs (B2R r - e) * Rabs (B2R r' - e') <= c * (u * A) * (c' * (u * A'))) by (apply Rmult_le_compat; try apply Rabs_pos; assumption).
    assert (c * (u * A) * (c' * (u * A')) <= (/ 100 * c') * (u * (A * A'))). { replace (c * (u * A) * (c' * (u * A'))) with ((c * u) * c' * (u * (A * A'))) by ring. apply Rmult_le_compat_r; [lra|]. apply Rmult_le_compat_r; lra. }
    assert (0 <= c * (u * (A * A'))) by (apply Rmult_le_pos; lra). assert (0 <= c' * (u * (A * A'))) by (apply Rmult_le_pos; lra).
    assert (Rabs e * Rabs (B2R r' - e') <= A * (c' * (u * A'))) by (apply Rmult_le_compat; try apply Rabs_pos; assumption). assert (Rabs e' * Rabs (B2R r - e) <= A' * (c * (u * A))) by (apply Rmult_le_compat; try apply Rabs_pos; assumption). lra. }
  assert (EE : Rabs (e * e') <= A * A') by (rewrite Rabs_mult; apply Rmult_le_compat; try apply Rabs_pos; assumption).
  assert (SM : (1.01 * (c + c')) * (u * (A * A')) <= / 50 * (A * A')). { rewrite <- Rmult_assoc. apply Rmult_le_compat_r; [lra|]. replace (1.01 * (c + c') * u) with (1.01 * (c * u) + 1.01 * (c' * u)) by ring. lra. }
  assert (P : Rabs (B2R r * B2R r') <= 1.02 * (A * A')). { replace (B2R r * B2R r') with ((B2R r * B2R r' - e * e') + e * e') by ring. eapply Rle_trans; [apply Rabs_triang|]. lra. }
  assert (G : is_finite (Bmult mode_NE r r') = true) by (apply mult_small; try assumption; apply (scale_below (A * A') _ SC); lra).
  split; [exact G|]. split; [exact EE|]. pose proof (mult_fin 53 1024 _ _ G) as (_ & _ & V). rewrite V. pose proof (rnd_any 53 1024 (B2R r * B2R r')) as RR. pose proof (scale_eta _ SC) as ET.
  assert (u * Rabs (B2R r * B2R r') <= u * (1.02 * (A * A'))) by (apply Rmult_le_compat_l; lra). assert (0 <= c * (u * (A * A'))) by (apply Rmult_le_pos; lra). assert (0 <= c' * (u * (A * A'))) by (apply Rmult_le_pos; lra). eapply Rle_trans; [apply (rabs_le3 _ (B2R r * B2R r'))|]. lra.
Qed.
(* 100 / S *)
Lemma over_rel A c e r (h : f64) : vrel A c e r -> isZ 100 h -> 0 < e -> c * (u * A) <= / 100 * e -> 0 <= c * (u * A) -> scale (100 / e) -> vrel (100 / e) (1.02 * (c * A / e) + 3) (100 / e) (Bdiv mode_NE h r).
Proof.
  intros (F & B & D) (FH & EH) E0 SM C0 SC. destruct u53 as [U0 U1]. apply Rabs_le_inv in D. assert (R0 : 0.99 * e <= B2R r <= 1.01 * e) by lra. pose proof (scale_pos _ SC) as P.
  assert (NR : B2R r <> 0) by lra. set (t := 100 / B2R r). set (k := 100 / e) in *. assert (KE : k * e = 100) by (unfold k; field; lra). assert (TE : t * B2R r = 100) by (unfold t; field; lra).
  assert (DT : Rabs (t - k) <= 1.015 * (c * A / e) * (u * k)).
  { assert (EQ : (t - k) * B2R r = k * (e - B2R r)) by (rewrite Rmult_minus_distr_r, TE, <- KE; ring). assert (AB : Rabs (t - k) * B2R r <= k * (c * (u * A))). { rewrite <- (Rabs_pos_eq (B2R r)) by lra. rewrite <- Rabs_mult, EQ, Rabs_mult, (Rabs_pos_eq k) by lra. apply Rmult_le_compat_l; [lra|]. apply Rabs_le. lra. }
    apply (Rmult_le_reg_r (B2R r)); [lra|]. eapply Rle_trans; [exact AB|]. assert (0 <= c * A). { apply (Rmult_le_reg_l u); [exact U0|]. lra. } assert (QQ : 0 <= c * A / e) by (apply Rmult_le_pos; [assumption|left; apply Rinv_0_lt_compat; exact E0]).
    replace (k * (c * (u * A))) with (c * A / e * (u * k) * e) by (field; lra). assert (QU : 0 <= c * A / e * (u * k)) by (apply Rmult_le_pos; [exact QQ|apply Rmult_le_pos; lra]). replace (1.015 * (c * A / e) * (u * k) * B2R r) with (c * A / e * (u * k) * (1.015 * B2R r)) by ring. apply Rmult_le_compat_l; lra. }
  assert (TK : Rabs t <= 1.02 * k). { assert (0 < t) by (unfold t; apply Rdiv_lt_0_compat; lra). rewrite Rabs_pos_eq by lra. apply (Rmult_le_reg_r (B2R r)); [lra|]. rewrite TE, <- KE. assert (k * e <= k * (1.02 * B2R r)) by (apply Rmult_le_compat_l; lra). lra. }
  destruct (fdiv 53 1024 h r FH NR) as [G V]; [rewrite EH; apply (scale_below k _ SC); fold t; lra|]. rewrite EH in V. fold t in V. split; [exact G|]. split; [rewrite Rabs_pos_eq; lra|]. rewrite V. pose proof (rnd_any 53 1024 t) as RR. pose proof (scale_eta _ SC) as ET.
  assert (u * Rabs t <= u * (1.02 * k)) by (apply Rmult_le_compat_l; lra). assert (0 < u * k) by (apply Rmult_lt_0_compat; lra).
  assert (QQ : 0 <= c * A / e). { apply Rmult_le_pos; [apply (Rmult_le_reg_l u); [exact U0|lra]|left; apply Rinv_0_lt_compat; exact E0]. } assert (0 <= c * A / e * (u * k)) by (apply Rmult_le_pos; lra).
  eapply Rle_trans; [apply (rabs_le3 _ t)|]. lra.
Qed.
Lemma vals_rel A c d ss : rel A c d ss -> Forall2 (vrel A c) (map snd d) (map s_v ss).
Proof. induction 1 as [|p s d ss [_ H] _ IH]; cbn [map]; constructor; assumption. Qed.
Lemma vrel_up A A' c c' e r : 0 <= A <= A' -> 0 <= c <= c' -> vrel A c e r -> vrel A' c' e r.
Proof. intros HA HC (F & B & D). destruct u53 as [U0 _]. split; [exact F|]. split; [lra|]. eapply Rle_trans; [exact D|]. apply Rmult_le_compat; try lra; [apply Rmult_le_pos; lra|]. apply Rmult_le_compat_l; lra. Qed.
Lemma fsum_left l : fsum (Fins l) = Fin (fold_left Rplus l 0).
Proof. unfold fsum. rewrite x_litd. replace (Q2R 0.0) with 0 by (clear; q2r; lra). generalize 0. induction l as [|a l IH]; intro z; [reflexivity|]. cbn [Fins map fold_left]. rewrite x_add. apply IH. Qed.

(* the two kinds of sums in to_xyz *)
Definition terms2 (l m : list R) (dw : R) : list R := map (fun p => fst p * snd p * dw) (combine l m).
Definition terms3 (l m n : list R) (dw : R) : list R := map (fun p => fst (fst p) * snd (fst p) * snd p * dw) (combine (combine l m) n).
Lemma sum2_left l m dw : fsum (map (fun '(i, y) => rmul (rmul i y) (Fin dw)) (combine (Fins l) (Fins m))) = Fin (fold_left Rplus (terms2 l m dw) 0).
Proof.
  rewrite <- fsum_left. f_equal. unfold terms2. revert m. induction l as [|a l IH]; intros [|b m]; try reflexivity. unfold Fins in *. cbn [map combine]. f_equal. apply IH.
Qed.
Lemma sum3_left l m n dw : sum3 (Fins l) (Fins m) (Fins n) (Fin dw) = Fin (fold_left Rplus (terms3 l m n dw) 0).
Proof.
  unfold sum3. rewrite <- fsum_left. f_equal. unfold terms3. revert m n. induction l as [|a l IH]; intros [|b m] [|c n]; try reflexivity. unfold Fins in *. cbn [map combine]. f_equal. apply IH.
Qed.
Lemma fold_rel A c es rs B : scale A -> 0 <= c <= 900000 -> Forall2 (vrel A c) es rs -> (length es <= 430)%nat -> INR (length es) * A <= B -> vrel B (c + 431) (fold_left Rplus es 0) (fold_left (Bplus mode_NE) rs (b_of_Q 53 1024 0.0)).
Proof.
  intros SC CC H LE HB. destruct u53 as [U0 U1]. pose proof (scale_pos A SC) as A0. destruct (isZ_lit 0.0 0) as [F0 E0]; [clear; q2r; lra|lia|].
  destruct (sum_rel A c SC ltac:(lra) es rs H 0 0 (b_of_Q 53 1024 0.0)) as (F & X & D); [lia|exact F0|rewrite Rabs_R0; cbn [INR]; lra|rewrite E0, Rminus_0_r, Rabs_R0; cbn [INR]; lra|]. cbn [Nat.add] in *.
  set (n := length es) in *. assert (N0 : 0 <= INR n <= 430). { split; [apply pos_INR|]. replace 430 with (INR 430) by (rewrite INR_IZR_INZ; reflexivity). apply le_INR, LE. }
  split; [exact F|]. split; [lra|]. eapply Rle_trans; [exact D|]. replace (INR n * (c + INR n + 1) * (u * A)) with ((c + INR n + 1) * (u * (INR n * A))) by ring. assert (0 <= INR n * A) by (apply Rmult_le_pos; lra). apply Rmult_le_compat; [lra|apply Rmult_le_pos; lra|lra|apply Rmult_le_compat_l; lra].
Qed.
Lemma dw_rel i v : isZ i v -> (1 <= i)%Z -> vrel (IZR i) 0 (IZR i) v.
Proof. intros (F & E) H. assert (1 <= IZR i) by (apply (IZR_le 1), H). split; [exact F|]. rewrite E, Rminus_diag_eq, Rabs_R0, Rabs_pos_eq by lra. split; [lra|]. rewrite Rmult_0_l. lra. Qed.
Lemma terms2_rel A B c c' i v es rs fs gs : Forall2 (vrel A c) es rs -> Forall2 (vrel B c') fs gs -> isZ i v -> (1 <= i)%Z -> 0 < A -> 0 < B -> scale (A * B) -> scale (A * B * IZR i) -> 0 <= c <= 400000 -> 0 <= c' <= 400000 ->
  Forall2 (vrel (A * B * IZR i) (c + c' + 4)) (terms2 es fs (IZR i)) (map (fun '(i, y) => Bmult mode_NE (Bmult mode_NE i y) v) (combine rs gs)).
Proof.
  intros H H' IV II A0 B0 S1 S2 CC CC'. assert (1 <= IZR i) by (apply (IZR_le 1), II). unfold terms2. revert fs gs H'. induction H as [|e r es rs V H IH]; intros fs gs H'; [constructor|]. destruct H' as [|f g fs gs W H']; cbn [combine map]; constructor; [|apply IH, H'].
  cbn [fst snd]. assert (AB : 0 < A * B) by (apply Rmult_lt_0_compat; assumption). apply (vrel_weak _ (c + c' + 2 + 0 + 2)); [left; apply Rmult_lt_0_compat; lra|lra|]. apply mult_rel; [apply mult_rel; assumption || lra|apply dw_rel; assumption|exact S2|exact AB|lra|lra|lra].
Qed.
Lemma terms3_rel A B D c c' c'' i v es rs fs gs hs ks : Forall2 (vrel A c) es rs -> Forall2 (vrel B c') fs gs -> Forall2 (vrel D c'') hs ks -> isZ i v -> (1 <= i)%Z -> 0 < A -> 0 < B -> 0 < D -> scale (A * B) -> scale (A * B * D) -> scale (A * B * D * IZR i) ->
  0 <= c <= 200000 -> 0 <= c' <= 200000 -> 0 <= c'' <= 200000 ->
  Forall2 (vrel (A * B * D * IZR i) (c + c' + c'' + 6)) (terms3 es fs hs (IZR i)) (map (fun '((s, i), c) => Bmult mode_NE (Bmult mode_NE (Bmult mode_NE s i) c) v) (combine (combine rs gs) ks)).
Proof.
  intros H H' H'' IV II A0 B0 D0 S1 S2 S3 CC CC' CC''. assert (1 <= IZR i) by (apply (IZR_le 1), II). assert (AB : 0 < A * B) by (apply Rmult_lt_0_compat; assumption). assert (ABD : 0 < A * B * D) by (apply Rmult_lt_0_compat; assumption). unfold terms3. revert fs gs hs ks H' H''. induction H as [|e r es rs V H IH]; intros fs gs hs ks H' H''; [constructor|]. destruct H' as [|f g fs gs W H']; [constructor|]. destruct H'' as [|h k hs ks Y H'']; cbn [combine map]; constructor; [|apply IH; assumption].
  cbn [fst snd]. apply (vrel_weak _ (c + c' + 2 + c'' + 2 + 0 + 2)); [left; apply Rmult_lt_0_compat; lra|lra|]. apply mult_rel; [apply mult_rel; [apply mult_rel; assumption || lra|exact Y|exact S2|exact AB|exact D0|lra|lra]|apply dw_rel; assumption|exact S3|exact ABD|lra|lra|lra].
Qed.
End F.
