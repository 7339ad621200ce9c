(* C100: to_xyz of spectra every 10 nm in f64 against exact arithmetic *)
From Coq Require Import Reals ZArith QArith Qreals Lra Lia Bool List Sorting.Sorted.
From Flocq Require Import Core BinarySingleNaN.
From Verif Require Import Outcome RealOps MathModel ColorModel InterpModel VspdModel XReal SpecLin FloatInst FloatProofs ErrProofs CurveProofs VspdProofs SpragueProofs PropShape PropSprague AlignProofs PropAlign SpragueErrProofs PropInterp LagrangeProofs WeightProofs PropWeights LinProofs XyzProofs PropStab GridProofs TenProofs PropXyzFloat.
Import ListNotations.
Open Scope R_scope.
Local Notation f64 := (binary_float 53 1024).
Local Notation g := (89 / 64).

(* ---- the coefficients ---- *)
(* a float within c units of q/den *)
Definition coef_ok (c den q : Z) (x : f64) : bool :=
  match x with
  | B754_finite s m e _ => Z.leb e 0 && Z.leb (Z.abs ((if s then Z.neg m else Z.pos m) * den - q * 2 ^ (- e)) * 2 ^ 53) (c * (den * 2 ^ (- e))) && Z.leb (Z.abs q) den
  | _ => false
  end.
Lemma coef_ok_rel c den q x : (0 < den)%Z -> coef_ok c den q x = true -> vrel 1 (IZR c) (IZR q / IZR den) x.
Proof.
  intros D H. assert (D0 : 0 < IZR den) by (apply IZR_lt; exact D). destruct x as [| | |s m e B]; try discriminate. unfold coef_ok in H. apply andb_true_iff in H. destruct H as (H & Q1). apply andb_true_iff in H. destruct H as (E & H).
  apply Z.leb_le in E, H, Q1. split; [reflexivity|]. split.
  - unfold Rdiv. rewrite Rabs_mult, <- abs_IZR, (Rabs_pos_eq (/ IZR den)) by (left; apply Rinv_0_lt_compat; exact D0). apply (Rmult_le_reg_r (IZR den)); [exact D0|]. rewrite Rmult_assoc, Rinv_l, Rmult_1_r, Rmult_1_l by lra. apply IZR_le. exact Q1.
  - cbn [B2R]. unfold F2R. cbn [Fnum Fexp]. replace (cond_Zopp s (Z.pos m)) with (if s then Z.neg m else Z.pos m) by (destruct s; reflexivity). set (z := if s then Z.neg m else Z.pos m) in *.
    replace e with (- - e)%Z by lia. set (p := (- e)%Z) in *. assert (P : (0 <= p)%Z) by (unfold p; lia). rewrite bpow_opp. rewrite <- (IZR_Zpower radix2 p P). change (radix_val radix2) with 2%Z in *.
    set (t := (2 ^ p)%Z) in *. assert (T : (0 < t)%Z) by (unfold t; apply Z.pow_pos_nonneg; lia). assert (T0 : 0 < IZR t) by (apply IZR_lt; exact T).
    apply IZR_le in H. rewrite !mult_IZR, abs_IZR, minus_IZR, !mult_IZR in H. change (bpow radix2 (- (53))) with (/ IZR (2 ^ 53)). set (w := IZR (2 ^ 53)) in *. assert (W0 : 0 < w) by (unfold w; apply IZR_lt; reflexivity).
    change (Zpower 2 p) with t. assert (DT : 0 < IZR den * IZR t) by (apply Rmult_lt_0_compat; assumption).
    replace (IZR z * / IZR t - IZR q / IZR den) with ((IZR z * IZR den - IZR q * IZR t) * / (IZR den * IZR t)) by (field; lra). rewrite Rabs_mult, (Rabs_pos_eq (/ _)) by (left; apply Rinv_0_lt_compat; exact DT).
    apply (Rmult_le_reg_r (IZR den * IZR t * w)); [apply Rmult_lt_0_compat; assumption|].
    replace (Rabs (IZR z * IZR den - IZR q * IZR t) * / (IZR den * IZR t) * (IZR den * IZR t * w)) with (Rabs (IZR z * IZR den - IZR q * IZR t) * w) by (field; lra). replace (IZR c * (/ w * 1) * (IZR den * IZR t * w)) with (IZR c * (IZR den * IZR t)) by (field; lra). exact H.
Qed.
Fixpoint all2 {A B} (f : A -> B -> bool) (l : list A) (m : list B) : bool := match l, m with [], [] => true | a :: l, b :: m => f a b && all2 f l m | _, _ => false end.
Lemma all2_F {A B} (f : A -> B -> bool) (P : A -> B -> Prop) : (forall a b, f a b = true -> P a b) -> forall l m, all2 f l m = true -> Forall2 P l m.
Proof. intros H. induction l as [|a l IH]; intros [|b m] E; try discriminate; constructor; cbn in E; apply andb_true_iff in E; [apply H, E|apply IH, E]. Qed.
(* row n of the tables, as whole numbers over 200 and over 6000 *)
Definition z3 (n : Z) : list Z := [(n - 10) * (n - 20); -2 * (n * (n - 20)); n * (n - 10)]%Z.
Definition z4 (n : Z) : list Z := [- (n * (n - 10) * (n - 20)); 3 * ((n + 10) * (n - 10) * (n - 20)); -3 * ((n + 10) * n * (n - 20)); (n + 10) * n * (n - 10)]%Z.
Section C.
Context {K : XConst} (L : libm f64).
Notation ops := (b_ops 53 1024 L (b_of_Q 53 1024)).
Definition nine : list Z := [1; 2; 3; 4; 5; 6; 7; 8; 9]%Z.
Definition f3 : list (list f64) := match @lagrange_coefficients_astm_e2022 _ ops (b_of_Z 53 1024 10) 3 with Ret r => r | _ => [] end.
Definition f4 : list (list f64) := match @lagrange_coefficients_astm_e2022 _ ops (b_of_Z 53 1024 10) 4 with Ret r => r | _ => [] end.
Lemma f3_ok : all2 (all2 (coef_ok 8 200)) (map z3 nine) f3 = true. Proof. vm_compute. reflexivity. Qed.
Lemma f4_ok : all2 (all2 (coef_ok 8 6000)) (map z4 nine) f4 = true. Proof. vm_compute. reflexivity. Qed.
Lemma F2_map {A A' B} (h : A -> A') (P : A' -> B -> Prop) l m : Forall2 (fun a b => P (h a) b) l m -> Forall2 P (map h l) m.
Proof. induction 1; constructor; assumption. Qed.
Lemma F2_nth {A B} (P : A -> B -> Prop) da db l m : Forall2 P l m -> forall k, (k < length l)%nat -> P (nth k l da) (nth k m db).
Proof. induction 1 as [|a b l m H _ IH]; intros [|k] N; cbn in N; try lia; [exact H|]. cbn [nth]. apply IH. lia. Qed.
Lemma F2_oindex {A B} (P : A -> B -> Prop) da l m : Forall2 P l m -> forall k, (k < length l)%nat -> exists b, oindex m k = Ret b /\ P (nth k l da) b.
Proof.
  intros H k N. unfold oindex. destruct (nth_error m k) as [b|] eqn:E.
  - exists b. split; [reflexivity|]. pose proof (F2_nth P da b l m H k N) as X. rewrite (nth_error_nth m k b E) in X. exact X.
  - apply nth_error_None in E. assert (LL : length l = length m) by (clear -H; induction H; cbn; congruence). lia.
Qed.
Lemma ten_floor : Z.to_nat (Zfloor 10) = 10%nat. Proof. rewrite (Zfloor_IZR 10). reflexivity. Qed.
Lemma pos10 k : rowpos 10 k = INR (k + 1) / 10.
Proof. replace 10 with (INR 10) by (cbn; lra). apply rowpos_int. lia. Qed.
Lemma rows3_ten : rows3 10 = map (map (fun q => IZR q / IZR 200)) (map z3 nine).
Proof. unfold rows3, nine. rewrite ten_floor. cbn [Nat.sub seq map]. rewrite !pos10. unfold lag3, z3. cbn [INR Nat.add map]. rewrite !mult_IZR, !minus_IZR. leq; lra. Qed.
Lemma rows4_ten : rows4 10 = map (map (fun q => IZR q / IZR 6000)) (map z4 nine).
Proof. unfold rows4, nine. rewrite ten_floor. cbn [Nat.sub seq map]. rewrite !pos10. unfold lag4, z4. cbn [INR Nat.add map]. repeat rewrite ?opp_IZR, ?mult_IZR, ?plus_IZR, ?minus_IZR. leq; lra. Qed.
Lemma f3_rel : Forall2 (Forall2 (vrel 1 8)) (rows3 10) f3.
Proof. rewrite rows3_ten. apply F2_map. apply (all2_F (all2 (coef_ok 8 200))); [|exact f3_ok]. intros a b H. apply F2_map. apply (all2_F (coef_ok 8 200)); [|exact H]. intros q x. apply coef_ok_rel. reflexivity. Qed.
Lemma f4_rel : Forall2 (Forall2 (vrel 1 8)) (rows4 10) f4.
Proof. rewrite rows4_ten. apply F2_map. apply (all2_F (all2 (coef_ok 8 6000))); [|exact f4_ok]. intros a b H. apply F2_map. apply (all2_F (coef_ok 8 6000)); [|exact H]. intros q x. apply coef_ok_rel. reflexivity. Qed.
Lemma f3_ret : @lagrange_coefficients_astm_e2022 _ ops (b_of_Z 53 1024 10) 3 = Ret f3. Proof. reflexivity. Qed.
Lemma f4_ret : @lagrange_coefficients_astm_e2022 _ ops (b_of_Z 53 1024 10) 4 = Ret f4. Proof. reflexivity. Qed.
Lemma ten_unique (v : f64) : isZ 10 v -> v = b_of_Z 53 1024 10.
Proof.
  intros (F & E). destruct (isZ_of 10 ltac:(lia)) as (F' & E'). apply B2R_inj; [| |congruence].
  - destruct v; try discriminate; [cbn in E; apply eq_IZR in E; discriminate|reflexivity].
  - reflexivity.
Qed.
Lemma ten_usize : @as_usize _ ops (b_of_Z 53 1024 10) = 10%nat. Proof. reflexivity. Qed.

(* ---- one channel of the table ---- *)
Lemma c_all_len : length (c_all 10 42 421 (rows3 10) (rows4 10)) = 1494%nat. Proof. reflexivity. Qed.
Lemma all_below x : In x (c_all 10 42 421 (rows3 10) (rows4 10)) -> (fst x < 43)%nat. Proof. intro H. apply (in_all 10 42 421 (rows3 10) (rows4 10)) in H; [lia|lia|lia]. Qed.
(* how many terms go into each weight *)
Definition counts : list R := fold_left cnt (c_all 10 42 421 (rows3 10) (rows4 10)) (map (fun _ => 1) (seq 0 43)).
Lemma counts_len : length counts = 43%nat. Proof. unfold counts. rewrite cnt_len, map_length, seq_length. reflexivity. Qed.
Lemma counts_sum : rsum counts = 1537.
Proof. unfold counts. rewrite cnt_sum by (rewrite map_length, seq_length; exact all_below). match goal with |- context [INR (length ?l)] => replace (length l) with 1494%nat by (symmetry; exact c_all_len) end. rewrite INR_IZR_INZ. unfold rsum. cbn. lra. Qed.
Lemma step_float (l : list f64) : length l = 421%nat -> step_by 10 l = Ret (map (fun j => nth (10 * j) l (b_of_Q 53 1024 0.0)) (seq 0 43)).
Proof. intro H. unfold step_by. rewrite (step_from_spec 10 (b_of_Q 53 1024 0.0) ltac:(lia) 421 l H) by lia. reflexivity. Qed.
Lemma A_is I C k : k * (g * I * (g * C)) = k * (g * g) * (I * C). Proof. ring. Qed.
Section T.
Context (I C : R) (MI : mid I) (MC : mid C) (s y : list R) (sf yf : list f64) (VS : Forall2 (vrel (g * I) 7552) s sf) (VY : Forall2 (vrel (g * C) 7552) y yf) (LS : length s = 421%nat) (LY : length y = 421%nat).
Notation A := (g * I * (g * C)).
Lemma A_scale : scale A. Proof. rewrite <- (Rmult_1_l (g * I * (g * C))), A_is. apply mid2; [exact MI|exact MC|lra]. Qed.
Lemma term_rel r f d a b t : Forall2 (Forall2 (vrel 1 8)) r f -> length r = 9%nat -> (forall k, (k < 9)%nat -> length (nth k r []) = d) -> (a < 9)%nat -> (b < d)%nat -> (t < 421)%nat ->
  exists tf, @wterm _ ops f a b sf yf t = Ret tf /\ vrel A 15116 (coef r a b * prod s y t) tf.
Proof.
  intros H L9 LD Ha Hb Ht. pose proof (mid_pos I MI) as I0. pose proof (mid_pos C MC) as C0. unfold wterm.
  destruct (F2_oindex _ [] r f H a ltac:(lia)) as (row & E1 & R1). rewrite E1. cbn [obind]. destruct (F2_oindex _ 0 _ row R1 b ltac:(rewrite LD by exact Ha; exact Hb)) as (x & E2 & R2). rewrite E2. cbn [obind].
  destruct (F2_oindex _ 0 s sf VS t ltac:(lia)) as (si & E3 & R3). rewrite E3. cbn [obind]. destruct (F2_oindex _ 0 y yf VY t ltac:(lia)) as (yi & E4 & R4). rewrite E4. cbn [obind]. eexists. split; [reflexivity|].
  cbn [rmul b_ops]. unfold coef, prod. rewrite <- (Rmult_assoc (nth b (nth a r []) 0)). replace A with (1 * (g * I) * (g * C)) by ring.
  apply (vrel_weak _ (8 + 7552 + 2 + 7552 + 2)); [repeat apply Rmult_le_pos; lra|lra|]. apply mult_rel; try lra.
  - apply mult_rel; try lra; [exact R2|exact R3|]. rewrite Rmult_1_l. apply mid_scale; [exact MI|lra].
  - exact R4.
  - replace (1 * (g * I) * (g * C)) with A by ring. exact A_scale.
Qed.
Lemma prods_rel : Forall2 (vrel A 15116) (base 10 42 (prod s y)) (map (fun j => Bmult mode_NE (nth (10 * j) sf (b_of_Q 53 1024 0.0)) (nth (10 * j) yf (b_of_Q 53 1024 0.0))) (seq 0 43)).
Proof.
  unfold base. assert (G : forall l, (forall j, In j l -> (j <= 42)%nat) -> Forall2 (vrel A 15116) (map (fun j => prod s y (10 * j)) l) (map (fun j => Bmult mode_NE (nth (10 * j) sf (b_of_Q 53 1024 0.0)) (nth (10 * j) yf (b_of_Q 53 1024 0.0))) l)).
  { induction l as [|j l IH]; intro H; [constructor|]. cbn [map]. constructor; [|apply IH; intros; apply H; right; assumption]. pose proof (H j ltac:(left; reflexivity)) as J. unfold prod. pose proof (mid_pos I MI). pose proof (mid_pos C MC).
    apply (vrel_weak _ (7552 + 7552 + 2)); [repeat apply Rmult_le_pos; lra|lra|]. apply mult_rel; try lra; [apply F2_nth; [exact VS|lia]|apply F2_nth; [exact VY|lia]|exact A_scale]. }
  apply G. intros j J. apply in_seq in J. lia.
Qed.
Lemma channel_rel : exists rs, @weights_channel _ ops 10 421 43 f3 f4 sf yf (map (fun j => Bmult mode_NE (nth (10 * j) sf (b_of_Q 53 1024 0.0)) (nth (10 * j) yf (b_of_Q 53 1024 0.0))) (seq 0 43)) = Ret rs /\ W A 15116 counts (table 10 421 (prod s y)) rs.
Proof.
  destruct u53 as [U0 U1]. 
  destruct (weights_channel_W L A 15116 A_scale ltac:(lra) 10 42 (rows3 10) (rows4 10) f3 f4 s y sf yf (map (fun _ => 1) (seq 0 43)) (base 10 42 (prod s y)) (map (fun j => Bmult mode_NE (nth (10 * j) sf (b_of_Q 53 1024 0.0)) (nth (10 * j) yf (b_of_Q 53 1024 0.0))) (seq 0 43))) as (rs & E & V); try lia.
  - reflexivity.
  - intros a b t Ha Hb Ht. apply (term_rel (rows3 10) f3 3 a b t f3_rel); try lia; [rewrite rows3_length, ten_floor; reflexivity|]. intros k Hk. rewrite rows3_nth by (rewrite ten_floor; exact Hk). reflexivity.
  - intros a b t Ha Hb Ht. apply (term_rel (rows4 10) f4 4 a b t f4_rel); try lia; [rewrite rows4_length, ten_floor; reflexivity|]. intros k Hk. rewrite rows4_nth by (rewrite ten_floor; exact Hk). reflexivity.
  - reflexivity.
  - replace (map (fun _ : nat => 1) (seq 0 43)) with (map (fun _ : R => 1) (base 10 42 (prod s y))) by reflexivity. apply W_ones; [exact A_scale|exact prods_rel].
  - exists rs. split; [exact E|]. unfold table. rewrite ten_floor. exact V.
Qed.
End T.
Lemma isZ_eq n m r s : isZ n r -> isZ m s -> Beqb r s = (n =? m)%Z.
Proof. intros (F & E) (F' & E'). rewrite Beqb_correct, E, E' by assumption. destruct (Z.eqb_spec n m) as [->|N]; [apply Req_bool_true; reflexivity|apply Req_bool_false; intro H; apply eq_IZR in H; contradiction]. Qed.
Lemma usize_div n i r s : isZ n r -> isZ i s -> (0 <= n <= 1000000)%Z -> (1 <= i <= 1000000)%Z -> @as_usize _ ops (Bdiv mode_NE r s) = Z.to_nat (n / i).
Proof.
  intros HR HS N I. pose proof (steps_float n i r s HR HS N I) as H. unfold b_to_usize in H. unfold as_usize. cbn [ras_uint b_ops]. set (x := Bdiv mode_NE r s) in *. clearbody x. destruct (is_finite x) eqn:F; [|discriminate]. destruct ((0 <=? Btrunc x)%Z && (Btrunc x <? 18446744073709551616)%Z) eqn:B; [|discriminate]. injection H as H. apply andb_true_iff in B. destruct B as [B1 B2]. apply Z.leb_le in B1. apply Z.ltb_lt in B2.
  f_equal. assert (X : b_as_uint 53 1024 usize_max x = Z.min (Z.max (Btrunc x) 0) usize_max) by (destruct x; try discriminate; reflexivity). rewrite X, H in *. unfold usize_max. rewrite <- H. lia.
Qed.
Lemma usize_div_exact n i : (0 <= n <= 1000000)%Z -> (1 <= i)%Z -> as_usize (Fin (IZR n / IZR i)) = Z.to_nat (n / i).
Proof.
  intros N I. assert (0 <= IZR n <= 1000000) by (split; [apply (IZR_le 0)|apply (IZR_le _ 1000000)]; lia). assert (1 <= IZR i) by (apply (IZR_le 1); lia). assert (0 <= IZR n / IZR i <= IZR n). { unfold Rdiv. split; [apply Rmult_le_pos; [lra|left; apply Rinv_0_lt_compat; lra]|]. rewrite <- (Rmult_1_r (IZR n)) at 2. apply Rmult_le_compat_l; [lra|]. rewrite <- Rinv_1. apply Rinv_le; lra. }
  rewrite as_usize_fin by lra. rewrite Zfloor_div by lia. reflexivity.
Qed.

(* ---- trimming the spectrum ---- *)
Lemma skip_F2 {A B} (P : A -> B -> Prop) f h : (forall a b, P a b -> f a = h b) -> forall l m, Forall2 P l m -> Forall2 P (skip_while f l) (skip_while h m).
Proof. intros H l m F. induction F as [|a b l m AB F IH]; [constructor|]. cbn. rewrite <- (H a b AB). destruct (f a); [exact IH|constructor; assumption]. Qed.
Lemma take_F2 {A B} (P : A -> B -> Prop) f h : (forall a b, P a b -> f a = h b) -> forall l m, Forall2 P l m -> Forall2 P (take_while f l) (take_while h m).
Proof. intros H l m F. induction F as [|a b l m AB F IH]; [constructor|]. cbn. rewrite <- (H a b AB). destruct (f a); constructor; assumption. Qed.
Definition cut (d : list (Z * R)) : list (Z * R) := take_while (fun p => fst p <=? 780)%Z (skip_while (fun p => fst p <? 360)%Z d).
Lemma cut_rel M c d ss : rel M c d ss -> forall s e : f64, isZ 360 s -> isZ 780 e -> rel M c (cut d) (take_while (fun x => Bleb (s_nm x) e) (skip_while (fun x => Bltb (s_nm x) s) ss)).
Proof. intros H s e S0 E0. unfold cut, rel. apply take_F2; [intros p x (N & _); symmetry; apply isZ_le; assumption|]. apply skip_F2; [intros p x (N & _); symmetry; apply isZ_lt; assumption|exact H]. Qed.
Lemma cut_exact d : take_while (fun x : sample xr => rle (s_nm x) (Fin 780)) (skip_while (fun x => rlt (s_nm x) (Fin 360)) (FinSamps (zr d))) = FinSamps (zr (cut d)).
Proof.
  assert (E1 : forall z, rlt (Fin (IZR z)) (Fin 360) = (z <? 360)%Z). { intro z. rewrite x_lt. destruct (Z.ltb_spec z 360); [apply Rltb_true; apply (IZR_lt _ 360); assumption|apply Rltb_false; apply (IZR_le 360); assumption]. }
  assert (E2 : forall z, rle (Fin (IZR z)) (Fin 780) = (z <=? 780)%Z). { intro z. rewrite x_le. destruct (Z.leb_spec z 780); [apply Rleb_true; apply (IZR_le _ 780); assumption|apply Rleb_false; apply (IZR_lt 780); assumption]. }
  unfold cut. assert (S1 : forall d, skip_while (fun x => rlt (s_nm x) (Fin 360)) (FinSamps (zr d)) = FinSamps (zr (skip_while (fun p => fst p <? 360)%Z d))).
  { clear d. induction d as [|[z v] d IH]; [reflexivity|]. cbn [zr map FinSamps skip_while fst snd]. unfold FinSamp at 1. cbn [s_nm fst]. rewrite E1. destruct (z <? 360)%Z; [exact IH|reflexivity]. }
  rewrite S1. generalize (skip_while (fun p => fst p <? 360)%Z d). clear d. induction l as [|[z v] d IH]; [reflexivity|]. cbn [zr map FinSamps take_while fst snd]. unfold FinSamp at 1. cbn [s_nm fst]. rewrite E2. destruct (z <=? 780)%Z; [|reflexivity]. cbn [map]. f_equal. exact IH.
Qed.
Lemma cut_spec d : zsorted d -> (exists p, In p d /\ (360 <= fst p <= 780)%Z) -> cut d <> [] /\ (360 <= first_key (cut d))%Z /\ (first_key (cut d) <= last_key (cut d))%Z /\ (last_key (cut d) <= 780)%Z.
Proof.
  intros Sd (p & Ip & Pp). unfold cut. set (m := skip_while (fun p => fst p <? 360)%Z d).
  assert (X : In p m /\ zsorted m /\ Forall (fun q => 360 <= fst q)%Z m).
  { unfold m. clear m. induction d as [|q d IH]; [destruct Ip|]. cbn [skip_while]. inversion Sd as [|? ? Sd' Fd]; subst. destruct (Z.ltb_spec (fst q) 360).
    - apply IH; [exact Sd'|]. destruct Ip as [->|Ip]; [lia|exact Ip].
    - split; [exact Ip|]. split; [exact Sd|]. constructor; [lia|]. rewrite Forall_forall in *. intros x Ix. specialize (Fd x Ix). cbn in Fd. lia. }
  clearbody m. destruct X as (Im & Sm & Fm). destruct m as [|q m]; [destruct Im|]. inversion Sm as [|? ? Sm' Fq]; subst. inversion Fm as [|? ? Q1 Fm']; subst.
  assert (Q2 : (fst q <= 780)%Z). { destruct Im as [->|Im]; [lia|]. rewrite Forall_forall in Fq. specialize (Fq p Im). cbn in Fq. lia. }
  cbn [take_while]. destruct (Z.leb_spec (fst q) 780); [|lia]. split; [discriminate|]. split; [exact Q1|]. 
  assert (T : Forall (fun x => fst q <= fst x <= 780)%Z (q :: take_while (fun p => fst p <=? 780)%Z m)).
  { constructor; [lia|]. clear -Fq. induction m as [|x m IH]; [constructor|]. inversion Fq; subst. cbn [take_while]. destruct (Z.leb_spec (fst x) 780); constructor; [lia|]. apply IH. assumption. }
  unfold first_key, last_key. set (l := q :: take_while (fun p => fst p <=? 780)%Z m) in *. rewrite Forall_forall in T. assert (LL : (length l - 1 < length l)%nat) by (unfold l; cbn [length]; lia). pose proof (T _ (nth_In l (0%Z, 0) LL)) as TT. change (nth 0 l (0%Z, 0)) with q. cbn beta in TT. clearbody l. lia.
Qed.
Lemma trim_both M c d ss sh s e iv tgt : rel M c d ss -> zsorted d -> (exists p, In p d /\ (360 <= fst p <= 780)%Z) -> isZ 360 (sh_start tgt) -> isZ 780 (sh_end tgt) ->
  exists ss' a b, @vspd_trim _ ops (Vspd ss sh) tgt = Ret (Vspd ss' (SpdShape a b (sh_interval sh))) /\ isZ (first_key (cut d)) a /\ isZ (last_key (cut d)) b /\ rel M c (cut d) ss'
    /\ vspd_trim (xspd d s e iv) (shape 360 780 1) = Ret (xspd (cut d) (first_key (cut d)) (last_key (cut d)) iv).
Proof.
  intros RL Sd Ex T1 T2. pose proof (cut_rel M c d ss RL _ _ T1 T2) as RC. destruct (cut_spec d Sd Ex) as (NE & _).
  destruct (first_rel _ _ _ _ RC NE) as (f & F1 & (F2 & _) & F3). destruct (last_rel _ _ _ _ RC NE) as (l & L1 & (L2 & _) & L3).
  eexists _, (s_nm f), (s_nm l). unfold vspd_trim. cbn [v_samples sh_start sh_end rle rlt b_ops]. rewrite F1. cbn [unwrap obind]. rewrite L1. cbn [unwrap obind]. split; [reflexivity|]. split; [exact F2|]. split; [exact L2|]. split; [exact RC|].
  unfold xspd, shape. cbn [v_samples sh_start sh_end]. rewrite cut_exact, F3. cbn [unwrap obind]. rewrite L3. cbn [unwrap obind s_nm]. reflexivity.
Qed.

(* ---- scaling, trimming and summing ---- *)
Lemma W_ge A c ks es rs : W A c ks es rs -> Forall (fun k => 1 <= k) ks. Proof. induction 1; constructor; assumption. Qed.
Definition budget10 (kappa M : R) : R := (6000000000 * kappa + 17000000000000 * kappa ^ 2) * (u * M).
Section S.
Context (I C M kappa S0 : R) (MI : mid I) (MC : mid C) (MM : mid M) (HS : 0 < S0) (HK : I * C <= kappa * S0) (KK : 0 <= kappa <= 100000).
Notation A := (g * I * (g * C)).
Notation q := (I * C / S0).
Notation ck := (1.02 * (18190 * (2973 * (I * C)) / S0) + 3).
Lemma IC_pos : 0 < I * C. Proof. apply Rmult_lt_0_compat; apply mid_pos; assumption. Qed.
Lemma q_upper : 0 < q <= kappa.
Proof. pose proof IC_pos. split; [apply Rdiv_lt_0_compat; lra|]. apply (Rmult_le_reg_r S0); [exact HS|]. unfold Rdiv. rewrite Rmult_assoc, Rinv_l by lra. lra. Qed.
Lemma ck_is : ck = 1.02 * (18190 * 2973 * q) + 3. Proof. unfold Rdiv. ring. Qed.
Lemma k_rel (ys : list R) (rs : list f64) : W A 15116 counts ys rs -> rsum ys = S0 -> / 2973 <= q /\ scale (100 / S0) /\ vrel (100 / S0) ck (100 / S0) (Bdiv mode_NE (b_of_Q 53 1024 100.0) (fold_left (Bplus mode_NE) rs (b_of_Q 53 1024 0.0))).
Proof.
  intros V E. destruct u53 as [U0 U1]. pose proof IC_pos as IC. pose proof q_upper as Q. assert (QS : q * S0 = I * C) by (field; lra).
  assert (SR : vrel (2973 * (I * C)) 18190 S0 (fold_left (Bplus mode_NE) rs (b_of_Q 53 1024 0.0))).
  { destruct (W_sum A 15116 (A_scale I C MI MC) ltac:(lra) counts ys rs V) as (F & B & D); [intro N; pose proof counts_len as LC; rewrite N in LC; discriminate|rewrite counts_sum; lra|]. rewrite counts_sum, E in *. assert (P : 0 < g * I * (g * C)) by (apply (scale_pos _ (A_scale I C MI MC))).
    apply (vrel_up (1537 * (g * I * (g * C))) _ 18190); [rewrite A_is; split; [|]; nra|lra|]. split; [exact F|]. split; [exact B|]. eapply Rle_trans; [exact D|]. right. ring. }
  assert (SUP : S0 <= 2973 * (I * C)). { destruct SR as (_ & B & _). rewrite Rabs_pos_eq in B by lra. exact B. }
  assert (QL : / 2973 <= q). { apply (Rmult_le_reg_r S0); [exact HS|]. rewrite QS. lra. }
  assert (KQ : 100 / S0 * (I * C) = 100 * q) by (field; lra).
  assert (IC1 : bpow radix2 (-400) <= I * C <= bpow radix2 400). { destruct MI as [A1 A2], MC as [B1 B2]. pose proof (bpow_gt_0 radix2 (-200)). split; [change (-400)%Z with (-200 + -200)%Z|change 400%Z with (200 + 200)%Z]; rewrite bpow_plus; apply Rmult_le_compat; lra. }
  assert (KS : scale (100 / S0)).
  { split.
    - apply (Rmult_le_reg_r (I * C)); [exact IC|]. rewrite KQ. apply Rle_trans with (bpow radix2 (-900) * bpow radix2 400); [apply Rmult_le_compat_l; [apply bpow_ge_0|apply IC1]|]. rewrite <- bpow_plus. apply Rle_trans with (bpow radix2 (-10)); [apply bpow_le; lia|]. change (/ 1024 <= 100 * q). lra.
    - apply (Rmult_le_reg_r (I * C)); [exact IC|]. rewrite KQ. apply Rle_trans with (bpow radix2 900 * bpow radix2 (-400)); [|apply Rmult_le_compat_l; [apply bpow_ge_0|apply IC1]]. rewrite <- bpow_plus. apply Rle_trans with (bpow radix2 30); [change (100 * q <= 1073741824); lra|apply bpow_le; lia]. }
  split; [exact QL|]. split; [exact KS|]. apply over_rel; [exact SR|apply isZ_lit; [clear; q2r; lra|lia]|exact HS| | |exact KS].
  - rewrite <- QS. replace (18190 * (u * (2973 * (q * S0)))) with (18190 * 2973 * (u * q) * S0) by ring. apply Rmult_le_compat_r; [lra|]. assert (u * q <= / 9000000000000000 * 100000) by (apply Rmult_le_compat; lra). lra.
  - assert (0 < u * (2973 * (I * C))) by (apply Rmult_lt_0_compat; lra). lra.
Qed.
(* one channel, from the table to the tristimulus value *)
Lemma finish_rel a b es rs kf xs ys : W A 15116 counts es rs -> / 2973 <= q -> scale (100 / S0) -> vrel (100 / S0) ck (100 / S0) kf -> (a + b < 43)%nat -> Forall2 (vrel M 1) xs ys -> xs <> [] ->
  exists rs', @adjust_channel _ ops a b (map (fun x => Bmult mode_NE x kf) rs) = Ret rs' /\ close (budget10 kappa M) (fsum (zip_mul (Fins (trimw a b (map (Rmult (100 / S0)) es))) (Fins xs))) (@fsum _ ops (@zip_mul _ ops rs' ys)).
Proof.
  intros V QL KS KR AB XY NX. destruct u53 as [U0 U1]. pose proof IC_pos as IC. pose proof q_upper as Q. assert (M0 := mid_pos M MM). pose proof (A_scale I C MI MC) as SA. pose proof (scale_pos _ SA) as A0. pose proof (scale_pos _ KS) as K0.
  assert (UQ : 0 <= u * q <= / 9000000000000000 * 100000) by (split; [apply Rmult_le_pos; lra|apply Rmult_le_compat; lra]).
  assert (CK : 0 <= ck /\ ck * u <= / 200 /\ 0 <= 1.01 * 15116 + ck + 44 /\ (1.01 * 15116 + ck + 44) * u <= / 200 /\ (1.01 * (1.01 * 15116 + ck + 44) + 1 + 44) * u <= / 200).
  { rewrite ck_is. set (t := q) in *. assert (E : (1.02 * (18190 * 2973 * t) + 3) * u = 1.02 * (18190 * 2973) * (u * t) + 3 * u) by ring. assert (E' : (1.01 * 15116 + (1.02 * (18190 * 2973 * t) + 3) + 44) * u = 1.02 * (18190 * 2973) * (u * t) + (1.01 * 15116 + 47) * u) by ring. assert (E2 : (1.01 * (1.01 * 15116 + (1.02 * (18190 * 2973 * t) + 3) + 44) + 1 + 44) * u = 1.01 * 1.02 * (18190 * 2973) * (u * t) + (1.01 * (1.01 * 15116 + 47) + 45) * u) by (clear; q2r; field). rewrite E, E', E2. clear - U0 U1 UQ Q. clearbody t. q2r. repeat split; lra. }
  destruct CK as (C0 & C1 & C2 & C3 & C4).
  assert (AK : g * I * (g * C) * (100 / S0) = 100 * (g * g) * q) by (field; lra). assert (Q6 : q <= 100000) by lra.
  assert (S1 : scale (g * I * (g * C) * (100 / S0))).
  { rewrite AK. split; [apply Rle_trans with (bpow radix2 (-10)); [apply bpow_le; lia|]; change (/ 1024 <= 100 * (g * g) * q); lra|apply Rle_trans with (bpow radix2 30); [change (100 * (g * g) * q <= 1073741824); lra|apply bpow_le; lia]]. }
  pose proof (W_scale A 15116 (100 / S0) ck (100 / S0) kf SA ltac:(lra) ltac:(lra) K0 C0 C1 S1 KR counts es rs V) as V1.
  destruct (adjust_W L _ _ S1 C3 a b _ _ _ ltac:(rewrite counts_len; exact AB) V1) as (rs' & E & V2). exists rs'. split; [exact E|].
  assert (S2 : scale (g * I * (g * C) * (100 / S0) * M)). { rewrite AK. destruct MM as [A1 A2]. pose proof (bpow_gt_0 radix2 (-200)). split.
    - apply Rle_trans with (bpow radix2 (-10) * bpow radix2 (-200)); [rewrite <- bpow_plus; apply bpow_le; lia|]. apply Rmult_le_compat; try lra; try apply bpow_ge_0. change (/ 1024 <= 100 * (g * g) * q). lra.
    - apply Rle_trans with (bpow radix2 60 * bpow radix2 200); [|rewrite <- bpow_plus; apply bpow_le; lia]. apply Rmult_le_compat; try lra. change (100 * (g * g) * q <= 1152921504606846976). lra. }
  pose proof (W_mul _ _ M 1 S1 C2 C3 M0 ltac:(lra) ltac:(lra) S2 _ _ _ V2 xs ys XY) as V3. pose proof (prefix_sum xs _ (W_ge _ _ _ _ _ V2)) as PS. rewrite trimw_sum, counts_sum in PS by (rewrite counts_len; exact AB).
  pose proof (W_ge _ _ _ _ _ V3) as G3. set (ks := map fst (combine (trimw a b counts) xs)) in *. set (es' := map (fun p => fst p * snd p) (combine (trimw a b (map (Rmult (100 / S0)) es)) xs)) in *.
  assert (NK : ks <> []). { unfold ks. destruct (trimw a b counts) as [|t l] eqn:ET; [apply (f_equal (@length R)) in ET; rewrite trimw_length, counts_len in ET; cbn [length] in ET; lia|]. destruct xs; [contradiction|discriminate]. }
  destruct (W_sum _ _ S2 C4 ks es' _ V3 NK ltac:(lra)) as (F & _ & D). rewrite zip_mul_fin, fsum_fin. fold es'. exists (rsum es'). split; [reflexivity|]. split; [exact F|]. eapply Rle_trans; [exact D|]. rewrite AK.
  assert (K1 : 0 <= rsum ks <= 1537). { split; [|exact PS]. clear - G3. induction G3 as [|x l X _ IH]; unfold rsum in *; cbn [fold_right]; lra. }
  assert (UM : 0 < u * M) by (apply Rmult_lt_0_compat; lra). rewrite ck_is. unfold budget10. clear - U0 U1 K1 Q M0 UM. set (t := q) in *. clearbody t.
  set (c2 := 1.01 * (1.01 * 15116 + (1.02 * (18190 * 2973 * t) + 3) + 44) + 1 + 44). assert (C2' : 0 <= c2 <= 55800000 * t + 15600) by (unfold c2; clear - Q; q2r; lra). clearbody c2.
  apply Rle_trans with (1537 * (c2 + 2 * 1537) * (u * (100 * (g * g) * t * M))).
  - apply Rmult_le_compat_r; [repeat apply Rmult_le_pos; lra|]. apply Rmult_le_compat; lra.
  - replace (1537 * (c2 + 2 * 1537) * (u * (100 * (g * g) * t * M))) with (1537 * (c2 + 2 * 1537) * (100 * (g * g) * t) * (u * M)) by ring. apply Rmult_le_compat_r; [lra|].
    apply Rle_trans with (1537 * (55800000 * t + 15600 + 2 * 1537) * (100 * (g * g) * t)); [apply Rmult_le_compat_r; [repeat apply Rmult_le_pos; lra|lra]|]. assert (T2 : t * t <= kappa * kappa) by (apply Rmult_le_compat; lra). cbn [pow]. rewrite Rmult_1_r. clear - T2 Q.
    replace (1537 * (55800000 * t + 15600 + 2 * 1537) * (100 * (g * g) * t)) with (1537 * 55800000 * 100 * (g * g) * (t * t) + 1537 * (15600 + 2 * 1537) * 100 * (g * g) * t) by field. assert (0 <= t * t) by (apply Rmult_le_pos; lra). lra.
Qed.
End S.

(* ---- to_xyz ---- *)
Context (PI : powi5_ok 53 1024 (l_powi L)).
Lemma full_align dbg fuel A d s e sp iv : tabulated A 1 d s e sp -> mid A -> (420 <= fuel)%nat -> overlaps 360 780 s e ->
  exists ss' sh' d', @vspd_align _ ops dbg fuel sp (@shape_new _ (@rlitd _ ops 360.0) (@rlitd _ ops 780.0) (@rlitd _ ops 1.0)) = Ret (Vspd ss' sh') /\ rsh 360 780 1 sh'
    /\ vspd_align dbg fuel (xspd d s e iv) (shape 360 780 1) = Ret (xspd d' 360 780 (Uniform (Fin 1))) /\ Forall2 (vrel (g * A) 7552) (map snd d') (map s_v ss') /\ length d' = 421%nat.
Proof.
  intros (T1 & T2 & T3 & T4 & T5 & T6 & T7 & T8) MA FU OV. destruct small36 as [SA SB]. assert (SC : scale A) by (rewrite <- (Rmult_1_l A); apply mid_scale; [exact MA|lra]). destruct sp as [ss sh]. cbn [v_samples] in *.
  assert (DA : data A 1 d ss) by (exact (conj T1 (conj T2 (conj T3 (conj T4 (conj SC (conj Rle_0_1 (IZR_le 1 1000000 ltac:(lia))))))))).
  destruct (align_rel L PI dbg fuel A 1 d ss sh s e iv _ 360 780 1 DA T5 T6 T7 T8 (s1_float L) SA SB ltac:(lia) OV ltac:(lia)) as (ss' & sh' & d' & X1 & X2 & X3 & X4 & X5 & _).
  exists ss', sh', d'. split; [exact X1|]. split; [exact X2|]. split; [exact X3|]. split; [replace 7552 with (1 + 7551) by lra; apply vals_rel; exact X4|]. rewrite <- (map_length fst d'), (X5 eq_refl), zgrid_length. reflexivity.
Qed.
(* the exact sum of illuminant times y-bar over 360..780 every 1 nm, which the weights are divided by *)
Definition normaliser1 (dbg : bool) (fuel : nat) (ill y : vspd xr) : outcome xr :=
  let! i := vspd_align dbg fuel ill (shape 360 780 1) in let! y := vspd_align dbg fuel y (shape 360 780 1) in Ret (fsum (zip_mul (v_values i) (v_values y))).
Lemma dotp_rsum a : forall b, rsum (map (fun p => fst p * snd p) (combine a b)) = dotp a b.
Proof. induction a as [|x a IH]; intros [|y b]; try reflexivity. cbn [combine map dotp fst snd]. rewrite <- IH. reflexivity. Qed.
Theorem C100_to_xyz dbg fuel M I C kappa S0 spd ill cx cy cz dS dI dX dY dZ sS eS sI eI ivI sX eX ivX sY eY ivY sZ eZ ivZ v :
  mid M -> mid I -> mid C -> (420 <= fuel)%nat ->
  rel M 1 dS (v_samples spd) -> zsorted dS -> (exists p, In p dS /\ (360 <= fst p <= 780)%Z) -> v_interval spd = Uniform v -> isZ 10 v ->
  tabulated I 1 dI sI eI ill -> tabulated C 1 dX sX eX cx -> tabulated C 1 dY sY eY cy -> tabulated C 1 dZ sZ eZ cz ->
  overlaps 360 780 sI eI -> overlaps 360 780 sX eX -> overlaps 360 780 sY eY -> overlaps 360 780 sZ eZ ->
  normaliser1 dbg fuel (xspd dI sI eI ivI) (xspd dY sY eY ivY) = Ret (Fin S0) -> 0 < S0 -> I * C <= kappa * S0 -> 0 <= kappa <= 100000 ->
  exists p q, @vspd_to_xyz _ ops dbg fuel spd ill (Cmf cx cy cz) = Ret p
    /\ vspd_to_xyz dbg fuel (xspd dS sS eS (Uniform (Fin 10))) (xspd dI sI eI ivI) (Cmf (xspd dX sX eX ivX) (xspd dY sY eY ivY) (xspd dZ sZ eZ ivZ)) = Ret q /\ close3 (budget10 kappa M) q p.
Proof.
  intros MM MI MC FU RS ZS EX EV IV TI TX TY TZ OI OX OY OZ HN HS HK KK. destruct spd as [ss [st en iv]]. cbn [v_samples] in RS. unfold v_interval in EV. cbn in EV. subst iv.
  destruct (full_align dbg fuel I dI sI eI ill ivI TI MI FU OI) as (ssI & shI & dI' & A1 & A2 & A3 & A4 & A5). destruct (full_align dbg fuel C dX sX eX cx ivX TX MC FU OX) as (ssX & shX & dX' & B1 & B2 & B3 & B4 & B5).
  destruct (full_align dbg fuel C dY sY eY cy ivY TY MC FU OY) as (ssY & shY & dY' & C1 & C2 & C3 & C4 & C5). destruct (full_align dbg fuel C dZ sZ eZ cz ivZ TZ MC FU OZ) as (ssZ & shZ & dZ' & D1 & D2 & D3 & D4 & D5).
  unfold normaliser1 in HN. rewrite A3, C3 in HN. cbn [obind] in HN. rewrite !xvals, zip_mul_fin, fsum_fin, dotp_rsum in HN. apply (f_equal (fun o => match o with Ret (Fin w) => w | _ => 0 end)) in HN. cbn beta iota in HN.
  set (s := map snd dI') in *. set (x := map snd dX') in *. set (y := map snd dY') in *. set (z := map snd dZ') in *. set (sf := map s_v ssI) in *. set (xf := map s_v ssX) in *. set (yf := map s_v ssY) in *. set (zf := map s_v ssZ) in *.
  assert (Ls : length s = 421%nat) by (unfold s; rewrite map_length; exact A5). assert (Lx : length x = 421%nat) by (unfold x; rewrite map_length; exact B5). assert (Ly : length y = 421%nat) by (unfold y; rewrite map_length; exact C5). assert (Lz : length z = 421%nat) by (unfold z; rewrite map_length; exact D5).
  assert (TS : rsum (table 10 421 (prod s y)) = S0). { rewrite table_sum by (try rewrite ten_floor; lra || lia). rewrite <- HN, <- (sumf_prod s y) by congruence. rewrite Ls. reflexivity. }
  destruct (channel_rel I C MI MC s x sf xf A4 B4 Ls Lx) as (wx & WX & VX). destruct (channel_rel I C MI MC s y sf yf A4 C4 Ls Ly) as (wy & WY & VY). destruct (channel_rel I C MI MC s z sf zf A4 D4 Ls Lz) as (wz & WZ & VZ).
  destruct (k_rel I C kappa S0 MI MC HS HK KK _ wy VY TS) as (QL & KS & KR). set (kf := Bdiv mode_NE (b_of_Q 53 1024 100.0) (fold_left (Bplus mode_NE) wy (b_of_Q 53 1024 0.0))) in *.
  pose proof B2 as (P1 & P2 & ci & P3 & P4). pose proof A2 as (Q1 & Q2 & ii & Q3 & Q4).
  destruct (trim_both M 1 dS ss (SpdShape st en (Uniform v)) sS eS (Uniform (Fin 10)) shX RS ZS EX P1 P2) as (ss' & ta & tb & R1 & R2 & R3 & R4 & R5). cbn [sh_interval] in R1.
  destruct (cut_spec dS ZS EX) as (NE & K1 & K2 & K3). set (d := cut dS) in *. set (a := Z.to_nat ((first_key d - 360) / 10)). set (b := Z.to_nat ((780 - last_key d) / 10)).
  assert (AB : (a + b < 43)%nat). { unfold a, b. pose proof (Z.mul_div_le (first_key d - 360) 10 ltac:(lia)). pose proof (Z.mul_div_le (780 - last_key d) 10 ltac:(lia)). pose proof (Z.div_pos (first_key d - 360) 10 ltac:(lia) ltac:(lia)). pose proof (Z.div_pos (780 - last_key d) 10 ltac:(lia) ltac:(lia)). lia. }
  assert (NX : map snd d <> []) by (destruct d; [contradiction|discriminate]). pose proof (vals_rel _ _ _ _ R4) as VS.
  destruct (finish_rel I C M kappa S0 MI MC MM HS HK KK a b _ wx kf _ _ VX QL KS KR AB VS NX) as (wx' & X1 & X2). destruct (finish_rel I C M kappa S0 MI MC MM HS HK KK a b _ wy kf _ _ VY QL KS KR AB VS NX) as (wy' & Y1 & Y2). destruct (finish_rel I C M kappa S0 MI MC MM HS HK KK a b _ wz kf _ _ VZ QL KS KR AB VS NX) as (wz' & Z1 & Z2).
  pose proof (ten_unique v IV) as EV10. subst v.
  assert (LF : forall dd (l : list (sample f64)), Forall2 (vrel (g * I) 7552) dd (map s_v l) \/ Forall2 (vrel (g * C) 7552) dd (map s_v l) -> length dd = 421%nat -> length (map s_v l) = 421%nat).
  { intros dd l H E. assert (G : forall (P : R -> f64 -> Prop) e m, Forall2 P e m -> length m = length e) by (clear; intros P e m; induction 1; cbn; congruence). destruct H as [H|H]; apply G in H; congruence. }
  assert (Lsf : length sf = 421%nat) by (apply (LF s); [left; exact A4|exact Ls]). assert (Lxf : length xf = 421%nat) by (apply (LF x); [right; exact B4|exact Lx]). assert (Lyf : length yf = 421%nat) by (apply (LF y); [right; exact C4|exact Ly]). assert (Lzf : length zf = 421%nat) by (apply (LF z); [right; exact D4|exact Lz]).
  assert (FF : @weighting_factors_astme2022 _ ops (Cmf (Vspd ssX shX) (Vspd ssY shY) (Vspd ssZ shZ)) (Vspd ssI shI) (shape_new (sh_start shX) (sh_end shX) (b_of_Z 53 1024 10)) = Ret (map (fun t => Bmult mode_NE t kf) wx, map (fun t => Bmult mode_NE t kf) wy, map (fun t => Bmult mode_NE t kf) wz)).
  { unfold weighting_factors_astme2022, cmf_shape, v_interval, v_values. cbn [x_bar y_bar z_bar v_shape v_samples sh_interval shape_new]. rewrite P3. cbn [req b_ops]. rewrite (isZ_eq 1 1 ci _ P4) by (apply isZ_lit; [clear; q2r; lra|lia]). cbn [Z.eqb Pos.eqb negb]. rewrite Q3. cbn [interval_eqb req b_ops]. rewrite (isZ_eq 1 1 ii ci Q4 P4). cbn [Z.eqb Pos.eqb negb].
    fold sf xf yf zf. rewrite f3_ret, f4_ret. cbn [obind]. rewrite ten_usize. rewrite !step_float by assumption. cbn [obind]. rewrite Lxf. change (usize_sub 421 1) with (Ret 420%nat). cbn [obind].
    assert (ZM : forall l m : list f64, @zip_mul _ ops (map (fun j => nth (10 * j) l (b_of_Q 53 1024 0.0)) (seq 0 43)) (map (fun j => nth (10 * j) m (b_of_Q 53 1024 0.0)) (seq 0 43)) = map (fun j => Bmult mode_NE (nth (10 * j) l (b_of_Q 53 1024 0.0)) (nth (10 * j) m (b_of_Q 53 1024 0.0))) (seq 0 43)).
    { intros l m. unfold zip_mul. generalize (seq 0 43). induction l0 as [|j l0 IH]; [reflexivity|]. cbn [map combine]. rewrite IH. reflexivity. }
    rewrite !ZM, map_length, seq_length, WX. cbn [obind]. rewrite WY. cbn [obind]. rewrite WZ. cbn [obind]. reflexivity. }
  assert (Lw : length wx = 43%nat). { pose proof (W_len _ _ _ _ _ VX) as (_ & LL). rewrite LL. exact counts_len. }
  eexists _, _. split; [|split].
  - unfold vspd_to_xyz. rewrite A1. cbn [obind]. unfold cmf_align. cbn [x_bar y_bar z_bar]. rewrite B1, C1, D1. cbn [obind]. unfold v_interval at 1. cbn [v_shape sh_interval]. cbn [rto_usize b_ops]. rewrite (usize_float 10 _ (isZ_of 10 ltac:(lia)) ltac:(lia)). cbn [unwrap obind Z.eqb Pos.eqb].
    unfold spd_to_xyz_weighting. unfold v_interval at 1. cbn [v_shape sh_interval]. unfold cmf_shape at 1. cbn [x_bar v_shape]. unfold shape_eqb. cbn [req b_ops]. rewrite (isZ_eq 360 360 _ _ Q1 P1), (isZ_eq 780 780 _ _ Q2 P2), P3, Q3. cbn [interval_eqb req b_ops]. rewrite (isZ_eq 1 1 ii ci Q4 P4). cbn [Z.eqb Pos.eqb andb negb obind].
    change (cmf_shape (Cmf (Vspd ssX shX) (Vspd ssY shY) (Vspd ssZ shZ))) with shX. rewrite R1. cbn [obind]. rewrite FF. cbn [obind]. rewrite map_length, Lw. change (usize_sub 43 1) with (Ret 42%nat). cbn [obind].
    unfold adjust_weighting_factors_astme308. cbn [shape_new sh_interval sh_start sh_end v_shape]. unfold of_usize. cbn [rsub rdiv radd rmul rof_Z b_ops].
    rewrite (usize_div (first_key d - 360) 10); [|apply isZ_sub; [exact R2|exact P1|lia]|apply isZ_of; lia|lia|lia].
    rewrite (usize_div (780 - last_key d) 10); [|apply isZ_sub; [|exact R3|lia]|apply isZ_of; lia|lia|lia].
    2: { change 780%Z with (360 + 10 * 42)%Z. apply isZ_add; [exact P1|apply isZ_mul; [apply isZ_of; lia|apply isZ_of; cbn; lia|lia]|lia]. }
    fold a b. rewrite X1, Y1, Z1. cbn [obind]. reflexivity.
  - unfold vspd_to_xyz. rewrite s1_exact, A3. cbn [obind]. unfold cmf_align. cbn [x_bar y_bar z_bar]. rewrite B3, C3, D3. cbn [obind]. change (v_interval (xspd dS sS eS (Uniform (Fin 10)))) with (Uniform (Fin (IZR 10))). cbv iota. rewrite (usize_exact 10) by lia. cbn [unwrap obind Z.eqb Pos.eqb].
    unfold spd_to_xyz_weighting. change (v_interval (xspd dS sS eS (Uniform (Fin 10)))) with (Uniform (Fin 10)). cbv iota.
    assert (SE : shape_eqb (v_shape (xspd dI' 360 780 (Uniform (Fin 1)))) (cmf_shape (Cmf (xspd dX' 360 780 (Uniform (Fin 1))) (xspd dY' 360 780 (Uniform (Fin 1))) (xspd dZ' 360 780 (Uniform (Fin 1))))) = true).
    { unfold shape_eqb, cmf_shape, xspd. cbn [x_bar v_shape sh_start sh_end sh_interval interval_eqb]. rewrite !x_eq. rewrite !Reqb_true by reflexivity. reflexivity. }
    rewrite SE. cbn [negb obind]. change (cmf_shape (Cmf (xspd dX' 360 780 (Uniform (Fin 1))) (xspd dY' 360 780 (Uniform (Fin 1))) (xspd dZ' 360 780 (Uniform (Fin 1))))) with (shape 360 780 1). rewrite R5. cbn [obind].
    rewrite (factors_fin _ _ (shape_new (sh_start (shape 360 780 1)) (sh_end (shape 360 780 1)) (Fin 10)) 10 421 s x y z) by (try reflexivity; try assumption; try apply xvals; try (rewrite ten_floor; lia); try lra; rewrite TS; lra). cbn [obind].
    rewrite TS. unfold Fins at 1. rewrite map_length, map_length, table_length, ten_floor. change (usize_sub ((421 - 1) / 10 + 1) 1) with (Ret 42%nat). cbn [obind].
    unfold adjust_weighting_factors_astme308. cbn [shape_new shape sh_interval sh_start sh_end v_shape xspd]. rewrite of_usize_fin, x_mul, x_add, !x_sub, !x_div by lra.
    replace (IZR (first_key d) - 360) with (IZR (first_key d - 360)) by (rewrite minus_IZR; reflexivity). replace (360 + 10 * INR 42 - IZR (last_key d)) with (IZR (780 - last_key d)) by (rewrite minus_IZR, INR_IZR_INZ; cbn; lra).
    rewrite (usize_div_exact (first_key d - 360) 10), (usize_div_exact (780 - last_key d) 10) by lia. fold a b. rewrite !adjust_channel_fin by (rewrite map_length, table_length, ten_floor; exact AB). cbn [obind]. reflexivity.
  - unfold close3. cbn [xyz_x xyz_y xyz_z]. change (v_values (xspd d (first_key d) (last_key d) (Uniform (Fin 10)))) with (v_values (xspd d 0 0 (Uniform (Fin 10)))). rewrite !xvals. exact (conj X2 (conj Y2 Z2)).
Qed.
End C.
