(* C111: greys stay grey: converting (k, k, k) between spaces acts on each channel as the two transfer functions alone *)
From Coq Require Import Reals ZArith QArith Qreals Lra Lia Bool List.
From Flocq Require Import Core BinarySingleNaN.
From Verif Require Import Outcome RealOps MathModel ColorModel SpaceModel TransformModel XReal SpecLin FloatInst FloatProofs ErrProofs TransferProofs PropTransfer PropPixel RelErr CurveProofs PropCurve PropSelf MatProofs ConvMat ConvProofs PropConv.
Import ListNotations.
Open Scope R_scope.

Definition grey (k : Z) : rgbu := Rgb k k k.
(* the code a grey gets from the two transfer functions, with no matrix in between *)
Definition plain {K : XConst} (M N : Z) (s t : color_space xr) (k : Z) : rgbu := rgb_to_uint N (cs_encode t (cs_decode s (rgb_of_uint M (grey k)))).
Definition stays_grey {K : XConst} (w M N : Z) (s t : color_space xr) : Prop := forall ks to, Forall (fun k => 0 <= k <= M)%Z ks -> length to = length ks ->
  exists out, rgb_to_rgb (rgb_to_uint N) s t (map (rgb_of_uint M) (map grey ks)) to = Ret (length ks, out) /\ Forall2 (fun k c => close w c (plain M N s t k)) ks out.

(* ---- how much an encoder moves when its argument is scaled ---- *)
Definition bent (f : R -> R) (a c b p kn : R) : Prop := forall x, 0 <= x -> (x <= kn /\ f x = a * x) \/ (kn <= x /\ f x = c * Rpower x p - b).
Lemma pow_scale x s p d : 0 < x <= 1 -> 0 < p <= 1 -> Rabs (s - 1) <= d -> d <= 0.001 -> Rabs (Rpower (s * x) p - Rpower x p) <= d.
Proof.
  intros X P S D. apply Rabs_le_inv in S. rewrite <- Rpower_mult_distr by lra. assert (XP : 0 < Rpower x p <= 1). { split; [apply exp_pos|]. rewrite <- (rpower_1 p). apply Rle_Rpower_l; lra. }
  assert (SP : Rabs (Rpower s p - 1) <= d).
  { destruct (Rle_dec 1 s) as [O|O].
    - pose proof (pow_above s p O ltac:(lra)). assert (1 <= Rpower s p) by (rewrite <- (rpower_1 p); apply Rle_Rpower_l; lra). apply Rabs_le. lra.
    - pose proof (pow_below s p ltac:(lra) ltac:(lra)). assert (Rpower s p <= 1) by (rewrite <- (rpower_1 p); apply Rle_Rpower_l; lra). apply Rabs_le. lra. }
  replace (Rpower s p * Rpower x p - Rpower x p) with ((Rpower s p - 1) * Rpower x p) by ring. rewrite Rabs_mult, (Rabs_pos_eq (Rpower x p)) by lra. pose proof (Rabs_pos (Rpower s p - 1)). rewrite <- (Rmult_1_r d). apply Rmult_le_compat; lra.
Qed.
Lemma bent_scale f a c b p kn j x s d : bent f a c b p kn -> 0 < kn -> 0 < p <= 1 -> 0 <= c <= 1.1 -> 0 <= a -> a * kn <= 0.1 -> Rabs (a * kn - (c * Rpower kn p - b)) <= j -> 0 <= x <= 1 -> Rabs (s - 1) <= d -> d <= 0.001 ->
  Rabs (f (s * x) - f x) <= 1.2 * d + j.
Proof.
  intros BF KN P C A AK J X S D. pose proof S as S'. apply Rabs_le_inv in S'. assert (D0 : 0 <= d) by lra. assert (J0 : 0 <= j) by (eapply Rle_trans; [apply Rabs_pos|exact J]). apply Rabs_le_inv in J.
  assert (SX : 0 <= s * x) by (apply Rmult_le_pos; lra). assert (AD : a * kn * d <= 0.1 * d) by (apply Rmult_le_compat_r; lra).
  assert (CP : 0 < x -> Rabs (c * (Rpower (s * x) p - Rpower x p)) <= 1.1 * d). { intro X0. rewrite Rabs_mult, (Rabs_pos_eq c) by lra. apply Rmult_le_compat; try lra; [apply Rabs_pos|]. apply pow_scale; lra. }
  assert (DX : Rabs ((s - 1) * x) <= d * x). { rewrite Rabs_mult, (Rabs_pos_eq x) by lra. apply Rmult_le_compat_r; lra. } apply Rabs_le_inv in DX.
  destruct (BF (s * x) SX) as [[L1 E1]|[L1 E1]]; destruct (BF x (proj1 X)) as [[L2 E2]|[L2 E2]]; rewrite E1, E2.
  - assert (d * x <= d * kn) by (apply Rmult_le_compat_l; lra). assert (a * ((s - 1) * x) <= a * (d * kn)) by (apply Rmult_le_compat_l; lra). assert (a * - (d * kn) <= a * ((s - 1) * x)) by (apply Rmult_le_compat_l; lra). apply Rabs_le. lra.
  - assert (X0 : 0 < x) by lra. specialize (CP X0). apply Rabs_le_inv in CP. assert (SX1 : 0 < s * x) by (apply Rmult_lt_0_compat; lra).
    assert (Q1 : Rpower (s * x) p <= Rpower kn p) by (apply Rle_Rpower_l; lra). assert (Q2 : Rpower kn p <= Rpower x p) by (apply Rle_Rpower_l; lra).
    assert (c * Rpower (s * x) p <= c * Rpower kn p) by (apply Rmult_le_compat_l; lra). assert (c * Rpower kn p <= c * Rpower x p) by (apply Rmult_le_compat_l; lra).
    assert (s * kn <= s * x) by (apply Rmult_le_compat_l; lra). assert (0 <= (1 - s) * kn <= d * kn). { split; [lra|]. apply Rmult_le_compat_r; lra. }
    assert (a * (kn - s * x) <= a * (d * kn)) by (apply Rmult_le_compat_l; lra). assert (0 <= a * (kn - s * x)) by (apply Rmult_le_pos; lra). apply Rabs_le. lra.
  - destruct (Rle_lt_or_eq_dec 0 x (proj1 X)) as [X0|X0]; [|subst x; rewrite Rmult_0_r in L1; lra]. specialize (CP X0). apply Rabs_le_inv in CP.
    assert (Q1 : Rpower x p <= Rpower kn p) by (apply Rle_Rpower_l; lra). assert (Q2 : Rpower kn p <= Rpower (s * x) p) by (apply Rle_Rpower_l; lra).
    assert (c * Rpower x p <= c * Rpower kn p) by (apply Rmult_le_compat_l; lra). assert (c * Rpower kn p <= c * Rpower (s * x) p) by (apply Rmult_le_compat_l; lra).
    assert (d * x <= d * kn) by (apply Rmult_le_compat_l; lra). assert (a * (kn - x) <= a * (d * kn)) by (apply Rmult_le_compat_l; lra). assert (0 <= a * (kn - x)) by (apply Rmult_le_pos; lra). apply Rabs_le. lra.
  - assert (X0 : 0 < x) by lra. specialize (CP X0). apply Rabs_le_inv in CP. apply Rabs_le. lra.
Qed.
Definition kjump (k : kind) : R := match k with KSrgb => 3e-8 | KBt709 | KBt2020 => 2.5e-4 | _ => 0 end.
Lemma enc_scale {K : XConst} k x s d : In k kinds -> 0 <= x <= 1 -> Rabs (s - 1) <= d -> d <= 0.001 -> exists e e', kenc k (Fin (s * x)) = Fin e /\ kenc k (Fin x) = Fin e' /\ Rabs (e - e') <= 1.2 * d + kjump k.
Proof.
  intros I X S D. assert (D0 : 0 <= d) by (eapply Rle_trans; [apply Rabs_pos|exact S]). destruct k as [| | |g|]; cbn [kenc kjump].
  - exists (encR 12.92 0.055 1.055 2.4 0.0031308 (s * x)), (encR 12.92 0.055 1.055 2.4 0.0031308 x). rewrite !(proj2 srgb_x). split; [reflexivity|]. split; [reflexivity|].
    apply (bent_scale _ 12.92 1.055 0.055 (/ 2.4) 0.0031308); try lra.
    + intros y Y. unfold encR. destruct (Rle_dec y 0.0031308); [left|right]; lra.
    + assert ((12.92 * 0.0031308 - 3e-8 + 0.055) / 1.055 < Rpower 0.0031308 (/ 2.4)) by (apply (lt_frac_power _ _ 5 12); [lra|lra|cbn; lra|lia|lra]).
      assert (Rpower 0.0031308 (/ 2.4) < (12.92 * 0.0031308 + 3e-8 + 0.055) / 1.055) by (apply (gt_frac_power _ _ 5 12); [lra|lra|cbn; lra|lia|lra]). apply Rabs_le. lra.
  - exists (encR 4.5 0.099 1.099 (/ 0.45) 0.018 (s * x)), (encR 4.5 0.099 1.099 (/ 0.45) 0.018 x). rewrite !(proj2 bt709_x). split; [reflexivity|]. split; [reflexivity|].
    apply (bent_scale _ 4.5 1.099 0.099 (9 / 20) 0.018); try lra.
    + intros y Y. unfold encR. rewrite Rinv_inv. replace 0.45 with (9 / 20) by lra. destruct (Rle_dec y 0.018); [left|right]; lra.
    + pose proof bt709_knee_bounds as B. unfold bt709_knee in B. apply Rabs_le. lra.
  - exists (encR' 4.5 0.099 1.099 (/ 0.45) 0.018 (s * x)), (encR' 4.5 0.099 1.099 (/ 0.45) 0.018 x). rewrite !(proj2 bt2020_x). split; [reflexivity|]. split; [reflexivity|].
    apply (bent_scale _ 4.5 1.099 0.099 (9 / 20) 0.018); try lra.
    + intros y Y. unfold encR'. rewrite Rinv_inv. replace 0.45 with (9 / 20) by lra. destruct (Rlt_dec y 0.018); [left|right]; lra.
    + pose proof bt709_knee_bounds as B. unfold bt709_knee in B. apply Rabs_le. lra.
  - pose proof (kinds_pow g I) as G. assert (G0 : Q2R g <> 0) by lra. change (exists e e', @kenc _ xr_ops (KPow g) (Fin (s * x)) = Fin e /\ @kenc _ xr_ops (KPow g) (Fin x) = Fin e' /\ Rabs (e - e') <= 1.2 * d + 0).
    assert (P : 0 < / Q2R g <= 1). { split; [apply Rinv_0_lt_compat; lra|]. rewrite <- Rinv_1. apply Rinv_le; lra. }
    rewrite !(proj1 (powx g _ G0)). destruct (Rle_lt_or_eq_dec 0 x (proj1 X)) as [X0|X0].
    + apply Rabs_le_inv in S. assert (0 < s * x) by (apply Rmult_lt_0_compat; lra). rewrite !rootx_pos by lra. do 2 eexists. split; [reflexivity|]. split; [reflexivity|].
      assert (SS : Rabs (s - 1) <= d) by (apply Rabs_le; lra). pose proof (pow_scale x s (/ Q2R g) d ltac:(lra) P SS D). lra.
    + subst x. rewrite Rmult_0_r, rootx_zero by lra. do 2 eexists. split; [reflexivity|]. split; [reflexivity|]. rewrite Rminus_0_r, Rabs_R0. lra.
  - do 2 eexists. split; [reflexivity|]. split; [reflexivity|]. replace (s * x - x) with ((s - 1) * x) by ring. rewrite Rabs_mult, (Rabs_pos_eq x) by lra. assert (Rabs (s - 1) * x <= d * 1) by (apply Rmult_le_compat; try lra; apply Rabs_pos). lra.
Qed.
Lemma dec_unit {K : XConst} k x : In k kinds -> 0 <= x <= 1 -> exists y, kdec k (Fin x) = Fin y /\ 0 <= y <= 1.
Proof.
  intros I X. destruct C35_unit_range as (_ & U1 & _ & U2 & _ & U3 & U4). destruct k as [| | |g|]; cbn [kdec].
  - exact (proj2 (proj2 U1) x X).
  - exact (proj2 (proj2 U2) x X).
  - exact (proj2 (proj2 U3) x X).
  - pose proof (kinds_pow g I) as G. exact (proj2 (proj2 (U4 (Q2R g) ltac:(lra))) x X).
  - exists x. split; [reflexivity|exact X].
Qed.
Lemma enc_codes {K : XConst} k x s d N : In k kinds -> 0 <= x <= 1 -> Rabs (s - 1) <= d -> d <= 0.001 -> (1 <= N)%Z -> IZR N * (1.2 * d + kjump k) < 1 -> (Z.abs (quantize N (kenc k (Fin (s * x))) - quantize N (kenc k (Fin x))) <= 1)%Z.
Proof.
  intros I X S D HN B. destruct (enc_scale k x s d I X S D) as (e & e' & -> & -> & E). pose proof (xquant N e HN) as A. pose proof (xquant N e' HN) as C. apply clampR_near in E. assert (N1 : 1 <= IZR N) by (apply IZR_le; lia).
  apply int_gap. set (p := IZR (quantize N (Fin e))) in *. set (q := IZR (quantize N (Fin e'))) in *.
  assert (G : Rabs ((clampR e - clampR e') * IZR N) <= (1.2 * d + kjump k) * IZR N) by (rewrite Rabs_mult, (Rabs_pos_eq (IZR N)) by lra; apply Rmult_le_compat_r; lra). apply Rabs_le_inv in A, C, G. change (IZR 1) with 1. apply Rabs_def1; lra.
Qed.

(* ---- the rows of the nine by nine matrices ---- *)
Definition row_near (ppm : Z) (n : positive) (a b c : Z) : bool := (Z.abs (a + b + c - Zpos n) * 1000000 <=? ppm * Zpos n)%Z.
Definition rows_near (ppm : Z) (q : imat) : bool := match q with IM (Mat33 a b c d e f g h i) n => row_near ppm n a b c && row_near ppm n d e f && row_near ppm n g h i end.
Lemma row_near_ok ppm n a b c : row_near ppm n a b c = true -> Rabs (Q2R (a # n) + Q2R (b # n) + Q2R (c # n) - 1) <= IZR ppm / 1000000.
Proof.
  unfold row_near. rewrite Z.leb_le. intro H. apply IZR_le in H. rewrite !mult_IZR, abs_IZR, minus_IZR, !plus_IZR in H. unfold Q2R. cbn [Qnum Qden]. assert (N : 0 < IZR (Zpos n)) by (apply IZR_lt; lia). set (r := IZR (Zpos n)) in *.
  replace (IZR a * / r + IZR b * / r + IZR c * / r - 1) with ((IZR a + IZR b + IZR c - r) * / r) by (field; lra). rewrite Rabs_mult, (Rabs_pos_eq (/ r)) by (apply Rlt_le, Rinv_0_lt_compat, N).
  apply (Rmult_le_reg_r (r * 1000000)); [lra|]. replace (Rabs (IZR a + IZR b + IZR c - r) * / r * (r * 1000000)) with (Rabs (IZR a + IZR b + IZR c - r) * 1000000) by (field; lra). lra.
Qed.
(* parts per million by which the rows of the matrix from space i to space j may miss a sum of one *)
Definition built_in : list nat := [1; 2; 3; 4; 5; 7]%nat.
Definition exact_pair (i j : nat) : bool := existsb (Nat.eqb i) built_in && existsb (Nat.eqb j) built_in.
Definition miss (i j : nat) : Z := if exact_pair i j then 0%Z else 172%Z.
Lemma all_rows : forallb (fun i => forallb (fun j => rows_near (miss i j) (ipair i j)) (seq 0 9)) (seq 0 9) = true.
Proof. vm_compute. reflexivity. Qed.
Lemma rows_at i j : (i < 9)%nat -> (j < 9)%nat -> rows_near (miss i j) (ipair i j) = true.
Proof. intros Hi Hj. pose proof all_rows as A. rewrite forallb_forall in A. specialize (A i ltac:(apply in_seq; lia)). rewrite forallb_forall in A. exact (A j ltac:(apply in_seq; lia)). Qed.

Lemma grey_ok {K : XConst} w ppm M N s t ka kb q : In ka kinds -> acts s (kdec ka) (kenc ka) -> acts t (kdec kb) (kenc kb) -> rgb_to_rgb_matrix s t = Ret (FinM (toR (toQ q))) -> (1 <= M)%Z -> rows_near ppm q = true ->
  (forall x r, 0 <= x <= 1 -> Rabs (r - 1) <= IZR ppm / 1000000 -> (Z.abs (quantize N (kenc kb (Fin (r * x))) - quantize N (kenc kb (Fin x))) <= w)%Z) -> stays_grey w M N s t.
Proof.
  intros IA [SD _] [_ TE] MX HM RN CH ks to IN LE. unfold rgb_to_rgb. rewrite MX. cbn [obind].
  enough (G : exists out, rgb_to_rgb_loop (rgb_to_uint N) s t (FinM (toR (toQ q))) to (map (rgb_of_uint M) (map grey ks)) = (length ks, out) /\ Forall2 (fun k c => close w c (plain M N s t k)) ks out).
  { destruct G as (out & G1 & G2). exists out. rewrite G1. split; [reflexivity|exact G2]. }
  revert to LE. induction IN as [|k ks Hk IN IH]; intros to LE.
  - destruct to; [|discriminate]. exists []. split; [reflexivity|constructor].
  - destruct to as [|t0 to]; [discriminate|]. cbn [length] in LE. destruct (IH to ltac:(lia)) as (out & G1 & G2). cbn [map rgb_to_rgb_loop]. rewrite G1. eexists. split; [reflexivity|]. constructor; [|exact G2].
    assert (M1 : 1 <= IZR M) by (apply IZR_le; lia). assert (K0 : 0 <= IZR k <= IZR M) by (split; apply IZR_le; lia). assert (Q : IZR k / IZR M * IZR M = IZR k) by (field; lra).
    assert (X : 0 <= IZR k / IZR M <= 1) by (split; apply (Rmult_le_reg_r (IZR M)); lra). destruct (dec_unit ka _ IA X) as (y & EY & BY).
    unfold plain, cs_encode, cs_decode, rgb_of_uint, grey. rewrite !SD. unfold per_channel. cbn [rgb_r rgb_g rgb_b]. rewrite !xdeq, EY by lia.
    rewrite TE. unfold per_channel. cbn [rgb_r rgb_g rgb_b]. change (Rgb (Fin y) (Fin y) (Fin y)) with (FinRgb (y, y, y)). rewrite mat_mul_rgb_fin, TE. unfold per_channel. destruct q as [[a b c d e f g h i] n]. cbn [toQ toR mapp FinRgb rgb_r rgb_g rgb_b].
    unfold rows_near in RN. rewrite !andb_true_iff in RN. destruct RN as [[R0 R1] R2]. apply row_near_ok in R0, R1, R2.
    rewrite <- !Rmult_plus_distr_r. repeat split; cbn [rgb_to_uint rgb_r rgb_g rgb_b]; apply CH; assumption.
Qed.

(* ---- all pairs, exactly ---- *)
Definition grey_depth : list Z := [12; 12; 11; 11; 12; 12; 12; 12; 12]%Z.
Lemma at_pair {K : XConst} {KO : XConstOk K} i j : (i < 9)%nat -> (j < 9)%nat -> exists sx tx ka kb, nth_error (@spaces _ xr_ops) i = Some (Ret sx) /\ nth_error (@spaces _ xr_ops) j = Some (Ret tx) /\
  nth_error kinds i = Some ka /\ nth_error kinds j = Some kb /\ acts sx (kdec ka) (kenc ka) /\ acts tx (kdec kb) (kenc kb) /\ rgb_to_rgb_matrix sx tx = Ret (FinM (toR (toQ (ipair i j)))).
Proof.
  intros Hi Hj. destruct (some_at (@spaces _ xr_ops) i Hi) as [osx Asx]. destruct (some_at (@spaces _ xr_ops) j Hj) as [otx Atx]. destruct (some_at qspaces i Hi) as [qa Aqa]. destruct (some_at qspaces j Hj) as [qb Aqb]. destruct (some_at kinds i Hi) as [ka Aka]. destruct (some_at kinds j Hj) as [kb Akb].
  destruct (nth_Forall2 _ _ _ _ _ _ all_described Aqa Asx) as (sx & -> & Dx). destruct (nth_Forall2 _ _ _ _ _ _ all_described Aqb Atx) as (tx & -> & Dt).
  assert (FW : forall x, In x qspaces -> fit_white (q_white x) = true) by (apply Forall_forall; exact all_fit).
  pose proof (pair_exact qa qb sx tx Dx Dt (FW _ (nth_error_In _ _ Aqa)) (FW _ (nth_error_In _ _ Aqb))) as EX. rewrite <- (ipair_ok i j qa qb Aqa Aqb) in EX.
  exists sx, tx, ka, kb. repeat (split; [assumption|]). split; [exact (nth_Forall2 _ _ _ _ _ _ all_act Aka Asx _ eq_refl)|]. split; [exact (nth_Forall2 _ _ _ _ _ _ all_act Akb Atx _ eq_refl)|exact EX].
Qed.
Definition greys {K : XConst} : Prop := forall i j, (i < 9)%nat -> (j < 9)%nat -> exists sx tx, nth_error (@spaces _ xr_ops) i = Some (Ret sx) /\ nth_error (@spaces _ xr_ops) j = Some (Ret tx) /\
  forall M N, (1 <= M)%Z -> (1 <= N)%Z -> (In i built_in -> In j built_in -> stays_grey 0 M N sx tx) /\ ((N <= depth (nth j grey_depth 0))%Z -> stays_grey 1 M N sx tx).
Lemma in_built i : In i built_in -> existsb (Nat.eqb i) built_in = true.
Proof. intro H. apply existsb_exists. exists i. split; [exact H|apply Nat.eqb_refl]. Qed.
Theorem C111_greys_stay_grey {K : XConst} {KO : XConstOk K} : greys.
Proof.
  intros i j Hi Hj. destruct (at_pair i j Hi Hj) as (sx & tx & ka & kb & Ai & Aj & Ki & Kj & Sa & Ta & MX). exists sx, tx. split; [exact Ai|]. split; [exact Aj|]. intros M N HM HN. pose proof (rows_at i j Hi Hj) as RA. split.
  - intros Bi Bj. unfold miss, exact_pair in RA. rewrite (in_built i Bi), (in_built j Bj) in RA. cbn [andb] in RA. apply (grey_ok 0 0 M N sx tx ka kb (ipair i j) (nth_error_In _ _ Ki) Sa Ta MX HM RA).
    intros x r X S. assert (r = 1) as -> by (apply Rabs_le_inv in S; lra). rewrite Rmult_1_l, Z.sub_diag. cbn. lia.
  - intro D. apply (grey_ok 1 (miss i j) M N sx tx ka kb (ipair i j) (nth_error_In _ _ Ki) Sa Ta MX HM RA). intros x r X S.
    assert (S' : Rabs (r - 1) <= 172 / 1000000). { unfold miss in S. destruct (exact_pair i j); lra. }
    apply (enc_codes kb x r (172 / 1000000) N (nth_error_In _ _ Kj) X S'); [lra|exact HN|]. apply IZR_le in D. assert (N0 : 0 <= IZR N) by (apply IZR_le; lia).
    clear - Kj D N0. destruct j as [|[|[|[|[|[|[|[|[|j]]]]]]]]]; cbn [nth_error kinds nth grey_depth] in Kj, D; [..|destruct j; discriminate]; injection Kj as <-; cbn [kjump].
    all: try (change (depth 12) with 4095%Z in D); try (change (depth 11) with 2047%Z in D); lra.
Qed.

(* the depths cannot all be 16 bits: the matrices written out for sRGB take white three codes off *)
Lemma below_ok ppm n a b c : ((Zpos n - (a + b + c)) * 1000000 >=? ppm * Zpos n)%Z = true -> Q2R (a # n) + Q2R (b # n) + Q2R (c # n) <= 1 - IZR ppm / 1000000.
Proof.
  rewrite Z.geb_leb, Z.leb_le. intro H. apply IZR_le in H. rewrite !mult_IZR, minus_IZR, !plus_IZR in H. unfold Q2R. cbn [Qnum Qden]. assert (N : 0 < IZR (Zpos n)) by (apply IZR_lt; lia). set (r := IZR (Zpos n)) in *.
  apply (Rmult_le_reg_r (r * 1000000)); [lra|]. replace ((IZR a * / r + IZR b * / r + IZR c * / r) * (r * 1000000)) with ((IZR a + IZR b + IZR c) * 1000000) by (field; lra). lra.
Qed.
Lemma blue_short : match ipair 0 7 with IM (Mat33 _ _ _ _ _ _ g h i) n => ((Zpos n - (g + h + i)) * 1000000 >=? 52 * Zpos n)%Z end = true.
Proof. vm_compute. reflexivity. Qed.
Theorem C111_all_depths_refuted {K : XConst} {KO : XConstOk K} : exists sx tx, nth_error (@spaces _ xr_ops) 0 = Some (Ret sx) /\ nth_error (@spaces _ xr_ops) 7 = Some (Ret tx) /\ ~ stays_grey 2 65535 65535 sx tx.
Proof.
  destruct (at_pair 0 7 ltac:(lia) ltac:(lia)) as (sx & tx & ka & kb & Ai & Aj & Ki & Kj & [SD _] & [_ TE] & MX). exists sx, tx. split; [exact Ai|]. split; [exact Aj|]. intro SG.
  injection Ki as <-. injection Kj as <-. destruct (SG [65535]%Z [grey 0]) as (out & E & F); [repeat constructor; lia|reflexivity|]. inversion F as [|k c l l' (_ & _ & CB) F' E1 E2]. subst. inversion F'. subst. clear F F'.
  unfold rgb_to_rgb in E. rewrite MX in E. cbn [obind map rgb_to_rgb_loop length] in E. apply (f_equal (fun o => match o with Ret (_, x :: _) => rgb_b x | _ => 0%Z end)) in E. cbv beta iota in E. rewrite <- E in CB. clear E.
  unfold plain, cs_encode, cs_decode, rgb_of_uint, grey in CB. rewrite !SD in CB. unfold per_channel in CB. cbn [rgb_r rgb_g rgb_b] in CB. rewrite !xdeq in CB by lia. replace (IZR 65535 / IZR 65535) with 1 in CB by (field; lra).
  destruct C35_unit_range as (_ & (_ & U1 & _) & _). cbn [kdec] in CB. rewrite U1 in CB. rewrite TE in CB. unfold per_channel in CB. cbn [rgb_r rgb_g rgb_b] in CB. change (Rgb (Fin 1) (Fin 1) (Fin 1)) with (FinRgb (1, 1, 1)) in CB. rewrite mat_mul_rgb_fin, TE in CB. unfold per_channel in CB.
  pose proof blue_short as BS. destruct (ipair 0 7) as [[a b c0 d e f g h i] n]. apply below_ok in BS. cbn [toQ toR mapp FinRgb rgb_r rgb_g rgb_b kenc rgb_to_uint] in CB.
  match type of CB with (Z.abs (quantize _ (Fin ?v) - quantize _ (Fin ?z)) <= _)%Z => pose proof (xquant 65535 v ltac:(lia)) as Q1; pose proof (xquant 65535 z ltac:(lia)) as Q2; set (p := quantize 65535 (Fin v)) in *; set (q := quantize 65535 (Fin z)) in *; assert (V : clampR v <= 1 - 52 / 1000000) by (unfold clampR; apply Rmax_lub; [lra|eapply Rle_trans; [apply Rmin_r|lra]]); set (cv := clampR v) in * end.
  rewrite (clampR_high 1) in Q2 by lra. apply IZR_le in CB. rewrite abs_IZR, minus_IZR in CB. apply Rabs_le_inv in CB, Q1, Q2. lra.
Qed.

(* ---- and in floating point: what exact arithmetic gives, plus the distance of C95 ---- *)
Section Fmt.
Context (prec emax : Z) {Hp : Prec_gt_0 prec} {He : Prec_lt_emax prec emax}.
Notation fl := (binary_float prec emax).
Context (L : libm fl) (lit : Q -> fl).
Notation ops := (b_ops prec emax L lit).
Definition float_grey {K : XConst} (w M N : Z) (sf tf : color_space fl) (sx tx : color_space xr) : Prop := forall ks to, Forall (fun k => 0 <= k <= M)%Z ks -> length to = length ks ->
  exists out, @rgb_to_rgb _ ops _ (@rgb_to_uint _ ops N) sf tf (map (@rgb_of_uint _ ops M) (map grey ks)) to = Ret (length ks, out) /\ Forall2 (fun k c => close w c (plain M N sx tx k)) ks out.
Lemma close_trans a b (c d e : rgbu) : close a c d -> close b d e -> close (a + b) c e.
Proof. intros (H1 & H2 & H3) (G1 & G2 & G3). unfold close. lia. Qed.
Lemma via_exact {K : XConst} w w' M N sf tf sx tx : same_image prec emax L lit w M N sf tf sx tx -> stays_grey w' M N sx tx -> float_grey (w + w') M N sf tf sx tx.
Proof.
  intros SI SG ks to IN LE. destruct (SI (map grey ks) to to) as (out & out' & E1 & E2 & F).
  { rewrite Forall_map. eapply Forall_impl; [|exact IN]. intros k Hk. cbv beta in Hk. unfold codes, grey. cbn [rgb_r rgb_g rgb_b]. lia. } { rewrite map_length. exact LE. } { rewrite map_length. exact LE. }
  destruct (SG ks to IN LE) as (o & E3 & F'). rewrite E3 in E2. rewrite map_length in E1, E2. injection E2 as <-. exists out. split; [exact E1|].
  clear - F F'. revert out F. induction F' as [|k c ks o H F' IH]; intros out F; inversion F as [|c' ? out' ? H1 F1]; subst; constructor; [eapply close_trans; eassumption|apply IH; assumption].
Qed.
Definition float_greys {K : XConst} (limits : list (list (Z * Z))) : Prop := forall i j, (i < 9)%nat -> (j < 9)%nat -> exists sf tf sx tx,
  nth_error (@spaces _ ops) i = Some (Ret sf) /\ nth_error (@spaces _ ops) j = Some (Ret tf) /\ nth_error (@spaces _ xr_ops) i = Some (Ret sx) /\ nth_error (@spaces _ xr_ops) j = Some (Ret tx) /\
  forall m n d w, (1 <= m <= 16)%Z -> In (d, w) (nth j limits []) -> (1 <= n <= d)%Z ->
    (In i built_in -> In j built_in -> float_grey w (depth m) (depth n) sf tf sx tx) /\ ((n <= nth j grey_depth 0)%Z -> float_grey (w + 1) (depth m) (depth n) sf tf sx tx).
Lemma from_agree {K : XConst} {KO : XConstOk K} limits : agree prec emax L lit limits -> float_greys limits.
Proof.
  intros A i j Hi Hj. destruct (A i j Hi Hj) as (sf & tf & sx & tx & E1 & E2 & E3 & E4 & H). destruct (C111_greys_stay_grey i j Hi Hj) as (sx' & tx' & E5 & E6 & G). rewrite E3 in E5. rewrite E4 in E6. injection E5 as <-. injection E6 as <-.
  exists sf, tf, sx, tx. repeat (split; [assumption|]). intros m n d w Hm Hd Hn. specialize (H m n d w Hm Hd Hn). pose proof (depth_le m m ltac:(lia)) as DM. pose proof (depth_le n n ltac:(lia)) as DN. destruct (G (depth m) (depth n) ltac:(lia) ltac:(lia)) as [G0 G1]. split.
  - intros Bi Bj. rewrite <- (Z.add_0_r w). apply via_exact; [exact H|exact (G0 Bi Bj)].
  - intro Hn'. apply via_exact; [exact H|]. apply G1. apply depth_le. lia.
Qed.
End Fmt.
Theorem C111_greys_f32 {K : XConst} {KO : XConstOk K} (L : libm f32) : good_powf 24 128 (l_powf L) -> powf_wide 24 128 (l_powf L) -> float_greys 24 128 L (fun q => f64_to_f32 (b_of_Q 53 1024 q)) limits32.
Proof. intros G W. exact (from_agree 24 128 L _ limits32 (C95_float_image_f32 L G W)). Qed.
Theorem C111_greys_f64 {K : XConst} {KO : XConstOk K} (L : libm f64) : good_powf 53 1024 (l_powf L) -> powf_wide 53 1024 (l_powf L) -> float_greys 53 1024 L (b_of_Q 53 1024) limits64.
Proof. intros G W. exact (from_agree 53 1024 L _ limits64 (C95_float_image_f64 L G W)). Qed.
Example C111_example (L : libm f64) : match @ACES_CG _ (f64_ops L) with
  | Ret t => @rgb_to_rgb _ (f64_ops L) _ (@rgb_to_uint _ (f64_ops L) 255) (@ACES _ (f64_ops L)) t (map (@rgb_of_uint _ (f64_ops L) 255) [grey 100; grey 7; grey 255]) [grey 0; grey 0; grey 0] = Ret (3%nat, [grey 100; grey 7; grey 255])
  | _ => False end.
Proof. vm_compute. reflexivity. Qed.
