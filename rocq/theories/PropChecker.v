(* C100: to_xyz in f64 of spectra every 10 nm under the tabulated illuminants, and of the colour checker *)
From Coq Require Import Reals ZArith QArith Qreals Lra Lia Bool List Sorting.Sorted.
From Flocq Require Import Core BinarySingleNaN.
From Verif Require Import Outcome RealOps MathModel ColorModel InterpModel VspdModel UpliftModel XReal SpecLin FloatInst FloatProofs ErrProofs CurveProofs VspdProofs PropShape SpragueProofs PropSprague AlignProofs PropAlign SpragueErrProofs PropInterp XyzProofs PropXyz PropDiffuser PropTables WhiteProofs PropWhite PropStab GridProofs PropXyzFloat PropXyzTables PropXyzTen.
From Verif Require Import DataIllum DataCmf DataChecker.
Import ListNotations.
Open Scope R_scope.
Local Notation f64 := (binary_float 53 1024).

Lemma ofold_and {B} (f : B -> bool) l : (forall x, In x l -> f x = true) -> forall g : bool -> B -> outcome bool, (forall a x, In x l -> g a x = Ret (a && f x)%bool) -> ofold g l true = Ret true.
Proof.
  intros H g G. assert (W : forall l', (forall x, In x l' -> In x l) -> ofold g l' true = Ret true).
  { induction l' as [|x l' IH]; intro S; [reflexivity|]. cbn [ofold]. rewrite G, H by (apply S; left; reflexivity). cbn [obind andb]. apply IH. intros y Y. apply S. right. exact Y. }
  apply W. intros x X. exact X.
Qed.

Section F.
Context {K : XConst} (L : libm f64).
Notation ops := (b_ops 53 1024 L (b_of_Q 53 1024)).
(* approx_eq says yes of a number and itself *)
Definition approx_same : Prop := forall (x e : f64) n, is_finite x = true -> l_approx L x x e n = true.

Lemma isZ_inj z a b : z <> 0%Z -> isZ z a -> isZ z b -> a = b.
Proof. intros N (F1 & E1) (F2 & E2). apply B2R_inj; [| |congruence]; apply is_finite_strict_B2R; rewrite ?E1, ?E2; apply IZR_neq; exact N. Qed.
Lemma new_uniform (AP : approx_same) (ss : list (sample f64)) d s h : (2 <= length ss)%nat -> (0 < h)%Z -> (0 <= s)%Z -> (s + Z.of_nat (length ss) * h <= 400000)%Z -> (forall k, (k < length ss)%nat -> isZ (s + Z.of_nat k * h) (s_nm (nth k ss d))) ->
  exists w, isZ h w /\ @vspd_new _ ops ss = Ret (Vspd ss (SpdShape (s_nm (nth 0 ss d)) (s_nm (nth (length ss - 1) ss d)) (Uniform w))).
Proof.
  intros N Hh Hs He NK. exists (Bminus mode_NE (s_nm (nth 1 ss d)) (s_nm (nth 0 ss d))).
  assert (DK : forall k, (1 <= k)%nat -> (k < length ss)%nat -> isZ h (Bminus mode_NE (s_nm (nth k ss d)) (s_nm (nth (k - 1) ss d)))).
  { intros k K1 K2. replace h with ((s + Z.of_nat k * h) - (s + Z.of_nat (k - 1) * h))%Z by (rewrite Nat2Z.inj_sub by lia; lia). apply isZ_sub; [apply NK; lia|apply NK; lia|]. assert (Z.of_nat k * h <= Z.of_nat (length ss) * h)%Z by (apply Z.mul_le_mono_nonneg_r; lia). assert (0 <= Z.of_nat (k - 1) * h)%Z by (apply Z.mul_nonneg_nonneg; lia). assert (Z.of_nat (k - 1) * h <= Z.of_nat (length ss) * h)%Z by (apply Z.mul_le_mono_nonneg_r; lia). assert (0 <= Z.of_nat k * h)%Z by (apply Z.mul_nonneg_nonneg; lia). lia. }
  split; [exact (DK 1%nat ltac:(lia) ltac:(lia))|].
  assert (OI : forall k, (k < length ss)%nat -> oindex ss k = Ret (nth k ss d)). { intros k H. unfold oindex. rewrite (nth_error_nth' ss d H). reflexivity. }
  assert (F : first_opt ss = Some (nth 0 ss d)) by (destruct ss; [cbn in N; lia|reflexivity]).
  assert (G : last_opt ss = Some (nth (length ss - 1) ss d)). { apply last_opt_nth. destruct ss; [cbn in N; lia|discriminate]. }
  unfold vspd_new, calculate_shape, calculate_interval. destruct (Nat.ltb_spec (length ss) 2); [lia|]. rewrite F, G. cbn [unwrap obind]. rewrite !OI by lia. cbn [obind].
  erewrite (ofold_and (fun k => @rapprox _ ops (@rsub _ ops (s_nm (nth k ss d)) (s_nm (nth (k - 1) ss d))) (@rsub _ ops (s_nm (nth 1 ss d)) (s_nm (nth 0 ss d))) (@rlitd _ ops 0.00000000001) 2)).
  - reflexivity.
  - intros k I. apply in_seq in I. cbn [rapprox rsub b_ops]. rewrite (isZ_inj h _ _ ltac:(lia) (DK k ltac:(lia) ltac:(lia)) (DK 1%nat ltac:(lia) ltac:(lia))). apply AP. exact (proj1 (DK 1%nat ltac:(lia) ltac:(lia))).
  - intros a k I. apply in_seq in I. rewrite !OI by lia. reflexivity.
Qed.
Lemma table_uniform (OK : XConstOk K) (AP : approx_same) b A l s h n : Q2R b + / 100 <= A <= 1000000 -> (0 < h)%Z -> upto b l = true -> (0 <= s)%Z -> (s + Z.of_nat n * h <= 400000)%Z -> table_ok 0 s h l = true -> length l = n -> (6 <= n)%nat ->
  exists sp w, @vspd_table _ ops l = Ret sp /\ v_interval sp = Uniform w /\ isZ h w /\ rel A 1 (zd s h l) (v_samples sp).
Proof.
  intros HA Hh U Hs He T LN N6. assert (R1 := zd_rel L h b A l HA Hh U s Hs ltac:(lia) T). pose proof (rel_length _ _ _ _ R1) as RL. rewrite zd_length in RL.
  destruct (new_uniform AP (map (fun '(nm, v) => Sample (@rlitd _ ops nm) (@rlitd _ ops v)) l) (Sample (b_of_Z 53 1024 0) (b_of_Z 53 1024 0)) s h ltac:(lia) Hh Hs ltac:(lia)) as (w & Hw & E).
  { intros k Hk. rewrite <- (zd_key h l s k) by lia. clear - R1 Hk RL. rewrite RL in Hk. rewrite <- (zd_length h l s) in Hk. clear RL. revert k Hk. induction R1 as [|p q d ss (P & _) _ IH]; intros k Hk; [cbn in Hk; lia|]. destruct k as [|k]; [exact P|]. cbn [nth]. apply IH. cbn in Hk. lia. }
  eexists _, w. split; [exact E|]. split; [reflexivity|]. split; [exact Hw|]. exact R1.
Qed.
End F.

Section G.
Context {K : XConst} (L : libm f64) (PI : powi5_ok 53 1024 (l_powi L)).
Notation ops := (b_ops 53 1024 L (b_of_Q 53 1024)).

Lemma norm1_val dbg fuel v y li ly : source v li -> source y ly -> (420 <= fuel)%nat -> normaliser1 dbg fuel v y = Ret (Fin (dotp li ly)).
Proof.
  intros Sv Sy F. unfold normaliser1. rewrite (source_align _ _ _ _ Sv F), (source_align _ _ _ _ Sy F). cbn [obind]. unfold nm1. rewrite !uspd_vals, zip_mul_fin, fsum_fin, dotp_rsum. reflexivity.
Qed.
Lemma builtin_ten (OK : XConstOk K) dbg fuel m l n v cm : table_ok 0 300 5 l = true -> upto 119 l = true -> length l = n -> (97 <= n <= 200)%nat -> exactly m (map snd l) = true -> heavy m l = true ->
  @vspd_table _ ops l = Ret v -> @cie_1931_2_degree _ ops = Ret cm -> (420 <= fuel)%nat ->
  exists v' cm', vspd_table l = Ret v' /\ cie_1931_2_degree = Ret cm' /\
  (forall M spd d s e w, mid M -> rel M 1 d (v_samples spd) -> zsorted d -> (exists p, In p d /\ (360 <= fst p <= 780)%Z) -> v_interval spd = Uniform w -> isZ 10 w ->
    exists p q, @vspd_to_xyz _ ops dbg fuel spd v cm = Ret p /\ vspd_to_xyz dbg fuel (xspd d s e (Uniform (Fin 10))) v' cm' = Ret q /\ close3 (M / 1000000) q p).
Proof.
  intros T U LN N X H Ev Ec F. destruct u53 as [U0 U1].
  assert (QC : Q2R 1.79 + / 100 <= 1.8 <= 1000000) by (clear; q2r; lra). assert (QI : Q2R 119 + / 100 <= 120 <= 1000000) by (clear; q2r; lra).
  assert (MI : mid 120) by (unfold mid; change (bpow radix2 (-200)) with (/ IZR (2 ^ 200)); split; [apply Rle_trans with (/ 1); [apply Rinv_le; [lra|apply IZR_le; discriminate]|lra]|apply Rle_trans with (bpow radix2 10); [change (bpow radix2 10) with 1024; lra|apply bpow_le; lia]]).
  assert (MC : mid 1.8) by (unfold mid; change (bpow radix2 (-200)) with (/ IZR (2 ^ 200)); split; [apply Rle_trans with (/ 1); [apply Rinv_le; [lra|apply IZR_le; discriminate]|clear; q2r; lra]|apply Rle_trans with (bpow radix2 10); [change (bpow radix2 10) with 1024; clear; q2r; lra|apply bpow_le; lia]]).
  destruct (table_tab L OK 119 120 l 300 5 n QI ltac:(lia) U ltac:(lia) ltac:(lia) T LN ltac:(lia)) as (v1 & E1 & TI & EI). rewrite Ev in E1. injection E1 as <-.
  assert (G : forall b, In b [data_x_bar; data_y_bar; data_z_bar] -> exists sp, @vspd_table _ ops b = Ret sp /\ tabulated 1.8 1 (zd 360 1 b) 360 830 sp /\ vspd_table b = Ret (xspd (zd 360 1 b) 360 830 (Uniform (Fin 1)))).
  { intros b Ib. destruct (cmf_ok b Ib) as (B1 & B2 & B3). exact (table_tab L OK 1.79 1.8 b 360 1 471 QC ltac:(lia) B2 ltac:(lia) ltac:(lia) B1 B3 ltac:(lia)). }
  destruct (G data_x_bar ltac:(cbn; tauto)) as (cx & Cx & Tx & Xx). destruct (G data_y_bar ltac:(cbn; tauto)) as (cy & Cy & Ty & Xy). destruct (G data_z_bar ltac:(cbn; tauto)) as (cz & Cz & Tz & Xz). clear G.
  assert (Hcm : cm = Cmf cx cy cz). { unfold cie_1931_2_degree in Ec. rewrite Cx in Ec. cbn [obind] in Ec. rewrite Cy in Ec. cbn [obind] in Ec. rewrite Cz in Ec. cbn [obind] in Ec. injection Ec as <-. reflexivity. }
  subst cm. eexists _, _. split; [exact EI|]. split; [unfold cie_1931_2_degree; rewrite Xx; cbn [obind]; rewrite Xy; cbn [obind]; rewrite Xz; cbn [obind]; reflexivity|].
  intros M spd d s e w MM RS ZS EX EV IV. pose proof (mid_pos M MM) as M0.
  set (e' := (300 + (Z.of_nat n - 1) * 5)%Z) in *. assert (HE : (780 <= e')%Z) by (unfold e'; lia).
  assert (SI : source (xspd (zd 300 5 l) 300 e' (Uniform (Fin 5))) (map (fun z => IZR z / (625 * (209 * IZR (Zpos m)))) (zint (PropWhite.zs m l)))).
  { destruct (ill_source m l (IZR e') n X) as (v2 & E2 & S2); [|apply IZR_le; exact HE|lia|rewrite EI in E2; injection E2 as <-; exact S2].
    replace 0 with (Q2R 0) by (unfold Q2R; cbn; lra). apply (table_wf OK l 0 300 e' 5 n T LN); [lia|reflexivity]. }
  assert (SY : source (xspd (zd 360 1 data_y_bar) 360 830 (Uniform (Fin 1))) (map (fun z => IZR z / IZR 1000000000000) (zcmf data_y_bar))).
  { destruct (cmf_source OK data_y_bar ltac:(cbn; tauto)) as (v2 & E2 & S2). rewrite Xy in E2. injection E2 as <-. exact S2. }
  pose proof (norm1_val dbg fuel _ _ _ _ SI SY F) as N1.
  assert (Pm : 0 < IZR (Z.pos m)) by (apply IZR_lt; reflexivity). set (k := 625 * (209 * IZR (Z.pos m))) in *. assert (Pk : 0 < k) by (unfold k; lra).
  rewrite zdot_dotp in N1 by lra. unfold heavy in H. apply andb_true_iff in H. destruct H as (H1 & _). apply Z.leb_le, IZR_le in H1. rewrite !mult_IZR in H1. fold k in H1.
  assert (Pkk : 0 < k * IZR 1000000000000) by (apply Rmult_lt_0_compat; lra).
  assert (Q1 : 10368 <= IZR (zdot (zint (PropWhite.zs m l)) (zcmf data_y_bar)) / (k * IZR 1000000000000)). { apply le_div; [exact Pkk|exact H1]. }
  assert (OO : overlaps 360 780 360 830) by (unfold overlaps; lia). assert (OI : overlaps 360 780 300 e') by (unfold overlaps; lia).
  assert (BB : forall S0, 10368 <= S0 -> 0 < S0 /\ 120 * 1.8 <= / 48 * S0 /\ 0 <= / 48 <= 100000) by (clear; intros; q2r; lra).
  destruct (BB _ Q1) as (b1 & b2 & b3).
  destruct (C100_to_xyz L PI dbg fuel M 120 1.8 (/ 48) _ spd v cx cy cz d _ _ _ _ s e _ _ (Uniform (Fin 5)) _ _ (Uniform (Fin 1)) _ _ (Uniform (Fin 1)) _ _ (Uniform (Fin 1)) w MM MI MC F RS ZS EX EV IV TI Tx Ty Tz OI OO OO OO N1 b1 b2 b3) as (p & q & P & Q & R3).
  exists p, q. split; [exact P|]. split; [exact Q|].
  assert (BU : budget10 (/ 48) M <= M / 1000000). { unfold budget10. assert (UM : u * M <= / 9000000000000000 * M) by (apply Rmult_le_compat_r; lra). clear - UM M0. match goal with |- ?c * _ <= _ => apply Rle_trans with (7600000000 * (u * M)) end; [apply Rmult_le_compat_r; [apply Rmult_le_pos; [apply bpow_ge_0|lra]|lra]|lra]. }
  clear - R3 BU. destruct R3 as (A & B & C). assert (W : forall x r, close (budget10 (/ 48) M) x r -> close (M / 1000000) x r) by (intros x r (e & E1 & E2 & E3); exists e; split; [exact E1|]; split; [exact E2|lra]). exact (conj (W _ _ A) (conj (W _ _ B) (W _ _ C))).
Qed.

(* every spectrum sampled every 10 nm, every built-in illuminant, the built-in colour matching functions *)
Theorem C100_builtin dbg fuel o o' : XConstOk K -> (420 <= fuel)%nat -> In (o, o') [(@spd_D50 _ ops, spd_D50); (@spd_D55 _ ops, spd_D55); (@spd_D60 _ ops, spd_D60); (@spd_D65 _ ops, spd_D65)] ->
  exists v cm v' cm', o = Ret v /\ @cie_1931_2_degree _ ops = Ret cm /\ o' = Ret v' /\ cie_1931_2_degree = Ret cm' /\
  forall M spd d s e w, mid M -> rel M 1 d (v_samples spd) -> zsorted d -> (exists p, In p d /\ (360 <= fst p <= 780)%Z) -> v_interval spd = Uniform w -> isZ 10 w ->
    exists p q, @vspd_to_xyz _ ops dbg fuel spd v cm = Ret p /\ vspd_to_xyz dbg fuel (xspd d s e (Uniform (Fin 10))) v' cm' = Ret q /\ close3 (M / 1000000) q p.
Proof.
  intros OK F HI.
  assert (QC : Q2R 1.79 + / 100 <= 1.8 <= 1000000) by (clear; q2r; lra). assert (QI : Q2R 119 + / 100 <= 120 <= 1000000) by (clear; q2r; lra).
  assert (G : forall b, In b [data_x_bar; data_y_bar; data_z_bar] -> exists sp, @vspd_table _ ops b = Ret sp).
  { intros b Ib. destruct (cmf_ok b Ib) as (B1 & B2 & B3). destruct (table_tab L OK 1.79 1.8 b 360 1 471 QC ltac:(lia) B2 ltac:(lia) ltac:(lia) B1 B3 ltac:(lia)) as (sp & E & _). exists sp. exact E. }
  destruct (G data_x_bar ltac:(cbn; tauto)) as (cx & Cx). destruct (G data_y_bar ltac:(cbn; tauto)) as (cy & Cy). destruct (G data_z_bar ltac:(cbn; tauto)) as (cz & Cz). clear G.
  assert (Ec : @cie_1931_2_degree _ ops = Ret (Cmf cx cy cz)) by (unfold cie_1931_2_degree; rewrite Cx; cbn [obind]; rewrite Cy; cbn [obind]; rewrite Cz; reflexivity).
  assert (W : forall m l n, table_ok 0 300 5 l = true -> upto 119 l = true -> length l = n -> (97 <= n <= 200)%nat -> exactly m (map snd l) = true -> heavy m l = true -> (o, o') = (@vspd_table _ ops l, vspd_table l) ->
    exists v cm v' cm', o = Ret v /\ @cie_1931_2_degree _ ops = Ret cm /\ o' = Ret v' /\ cie_1931_2_degree = Ret cm' /\
  forall M spd d s e w, mid M -> rel M 1 d (v_samples spd) -> zsorted d -> (exists p, In p d /\ (360 <= fst p <= 780)%Z) -> v_interval spd = Uniform w -> isZ 10 w ->
    exists p q, @vspd_to_xyz _ ops dbg fuel spd v cm = Ret p /\ vspd_to_xyz dbg fuel (xspd d s e (Uniform (Fin 10))) v' cm' = Ret q /\ close3 (M / 1000000) q p).
  { intros m l n T U LN N X H E. assert (E1 : o = @vspd_table _ ops l) by exact (f_equal fst E). assert (E2 : o' = vspd_table l) by exact (f_equal snd E). clear E HI. subst o o'.
    destruct (table_tab L OK 119 120 l 300 5 n QI ltac:(lia) U ltac:(lia) ltac:(lia) T LN ltac:(lia)) as (v & E1 & _ & _). destruct (builtin_ten OK dbg fuel m l n v _ T U LN N X H E1 Ec F) as (v' & cm' & B1 & B2 & B3).
    exists v, (Cmf cx cy cz), v', cm'. exact (conj E1 (conj Ec (conj B1 (conj B2 B3)))). }
  cbn [In] in HI. destruct HI as [E|[E|[E|[E|[]]]]]; symmetry in E.
  - apply (W 1000%positive data_D50 97%nat); try reflexivity; [lia|exact E].
  - apply (W 1000%positive data_D55 97%nat); try reflexivity; [lia|exact E].
  - apply (W 1000000000000000%positive data_D60 107%nat); try reflexivity; [lia|exact E].
  - apply (W 10000%positive data_D65 97%nat); try reflexivity; [lia|exact E].
Qed.

Lemma patch_ok l : In l data_spectral -> table_ok 0 380 10 l = true /\ upto 1 l = true /\ length l = 36%nat.
Proof.
  assert (F : forallb (fun l => table_ok 0 380 10 l && upto 1 l && Nat.eqb (length l) 36) data_spectral = true) by reflexivity. intro I. rewrite forallb_forall in F. apply F in I. rewrite !andb_true_iff in I. destruct I as ((A & B) & C). apply Nat.eqb_eq in C. exact (conj A (conj B C)).
Qed.
(* the 24 patches of the colour checker, under any of the four illuminants *)
Theorem C100_checker dbg fuel o o' l : XConstOk K -> approx_same L -> (420 <= fuel)%nat -> In (o, o') [(@spd_D50 _ ops, spd_D50); (@spd_D55 _ ops, spd_D55); (@spd_D60 _ ops, spd_D60); (@spd_D65 _ ops, spd_D65)] -> In l data_spectral ->
  exists v cm sp v' cm' sp' p q, o = Ret v /\ @cie_1931_2_degree _ ops = Ret cm /\ @vspd_table _ ops l = Ret sp /\ o' = Ret v' /\ cie_1931_2_degree = Ret cm' /\ vspd_table l = Ret sp'
  /\ @vspd_to_xyz _ ops dbg fuel sp v cm = Ret p /\ vspd_to_xyz dbg fuel sp' v' cm' = Ret q /\ close3 (/ 500000) q p.
Proof.
  intros OK AP F HI HL. destruct (C100_builtin dbg fuel o o' OK F HI) as (v & cm & v' & cm' & E1 & E2 & E3 & E4 & H). destruct (patch_ok l HL) as (T & U & LN).
  assert (Q1 : Q2R 1 + / 100 <= 2 <= 1000000) by (unfold Q2R; cbn; lra). assert (Q2 : Q2R 1 + / 100 <= 2 <= 1000000) by exact Q1.
  destruct (table_uniform L OK AP 1 2 l 380 10 36 Q1 ltac:(lia) U ltac:(lia) ltac:(lia) T LN ltac:(lia)) as (sp & w & A1 & A2 & A3 & A4). destruct (table_tab L OK 1 2 l 380 10 36 Q1 ltac:(lia) U ltac:(lia) ltac:(lia) T LN ltac:(lia)) as (_ & _ & _ & B).
  assert (M2 : mid 2). { split; change 2 with (bpow radix2 1); apply bpow_le; lia. }
  assert (EX : exists p, In p (zd 380 10 l) /\ (360 <= fst p <= 780)%Z). { destruct l as [|[x y] l]; [discriminate|]. eexists. split; [left; reflexivity|]. cbn. lia. }
  destruct (H 2 sp (zd 380 10 l) 380%Z (380 + (Z.of_nat 36 - 1) * 10)%Z w M2 A4 (proj2 (zd_from 10 l ltac:(lia) 380)) EX A2 A3) as (p & q & P & Q & C).
  eexists v, cm, sp, v', cm', _, p, q. split; [exact E1|]. split; [exact E2|]. split; [exact A1|]. split; [exact E3|]. split; [exact E4|]. split; [exact B|]. split; [exact P|]. split; [exact Q|].
  replace (/ 500000) with (2 / 1000000) by lra. exact C.
Qed.

(* a white sample every 10 nm under D65 comes out with Y = 100 to a millionth *)
Definition white10 : vspd f64 := Vspd (map (fun k => Sample (b_of_Z 53 1024 (360 + Z.of_nat k * 10)) (b_of_Z 53 1024 1)) (seq 0 43)) (SpdShape (b_of_Z 53 1024 360) (b_of_Z 53 1024 780) (Uniform (b_of_Z 53 1024 10))).
Definition d10 : list (Z * R) := zd 360 10 (repeat (0, 1)%Q 43).
Lemma d10_is : d10 = map (fun k => ((360 + Z.of_nat k * 10)%Z, Q2R 1)) (seq 0 43). Proof. reflexivity. Qed.
Lemma white10_rel : rel 1 1 d10 (v_samples white10).
Proof.
  destruct u53 as [U0 U1]. assert (ISZ : forall z, (Z.abs z <= 1000000000)%Z -> isZ z (b_of_Z 53 1024 z)) by exact isZ_of.
  unfold rel. rewrite d10_is. unfold white10. cbn [v_samples]. assert (G : forall l, (forall k, In k l -> (k < 43)%nat) -> Forall2 (near 1 1) (map (fun k => ((360 + Z.of_nat k * 10)%Z, Q2R 1)) l) (map (fun k => Sample (b_of_Z 53 1024 (360 + Z.of_nat k * 10)) (b_of_Z 53 1024 1)) l)).
  { induction l as [|k l IH]; intro H; [constructor|]. pose proof (H k ltac:(left; reflexivity)). cbn [map]. constructor; [|apply IH; intros j J; apply H; right; exact J]. cbn [fst snd s_nm s_v]; split; [apply ISZ; cbn [fst]; clear -H0; lia|]; cbn [snd s_v].
    destruct (ISZ 1%Z ltac:(lia)) as (F1 & E1). split; [exact F1|]. rewrite E1. replace (Q2R 1) with 1 by (unfold Q2R; cbn; lra). rewrite Rabs_R1, Rminus_diag_eq, Rabs_R0 by reflexivity. split; lra. }
  apply G. intros k I. apply in_seq in I. lia.
Qed.
Example C100_example : XConstOk K -> exists v cm p, @spd_D65 _ ops = Ret v /\ @cie_1931_2_degree _ ops = Ret cm /\ @vspd_to_xyz _ ops true 420 white10 v cm = Ret p /\ is_finite (xyz_y p) = true /\ Rabs (B2R (xyz_y p) - 100) <= / 1000000.
Proof.
  intro OK. destruct (C100_builtin true 420 (@spd_D65 _ ops) spd_D65 OK ltac:(lia) ltac:(cbn [In]; tauto)) as (v & cm & v' & cm' & E1 & E2 & E3 & E4 & H).
  assert (M1 : mid 1). { split; [change 1 with (bpow radix2 0); apply bpow_le; lia|change 1 with (bpow radix2 0); apply bpow_le; lia]. }
  destruct (H 1 white10 d10 360%Z 780%Z (b_of_Z 53 1024 10) M1 white10_rel (proj2 (zd_from 10 _ ltac:(lia) 360)) ltac:(eexists; split; [left; reflexivity|cbn; lia]) eq_refl (isZ_of 10 ltac:(lia))) as (p & q & P & Q & (_ & (y & Ey & Fy & By) & _)).
  exists v, cm, p. split; [exact E1|]. split; [exact E2|]. split; [exact P|]. split; [exact Fy|].
  destruct (C77_white_points OK) as (cm2 & _ & _ & _ & d65 & F1 & _ & _ & _ & F5 & _ & _ & _ & (a & b & _ & W)). rewrite E3 in F5. injection F5 as <-. rewrite E4 in F1. injection F1 as <-.
  assert (X5 : xspd d10 360 780 (Uniform (Fin 10)) = uspd (360 + 10 * IZR 0) 780 10 (repeat 1 43) (Uniform (Fin 10))).
  { unfold xspd, uspd, d10. rewrite zd_even. replace (360 + 10 * IZR 0) with (IZR 360) by lra. replace (vals (repeat (0%Q, 1%Q) 43)) with (repeat 1 43); [reflexivity|]. unfold vals. clear. generalize 43%nat. intro m. induction m as [|n IH]; [reflexivity|]. cbn [repeat map snd]. rewrite <- IH. f_equal. unfold Q2R. cbn. field. }
  destruct (W true 420%nat (uspd (360 + 10 * IZR 0) 780 10 (repeat 1 43) (Uniform (Fin 10))) ltac:(lia)) as (p2 & x2 & y2 & W1 & W2 & _).
  { apply diffuser_10. exists 0%nat. split; [lia|]. cbn [INR]. lra. }
  rewrite X5, W1 in Q. injection Q as <-. rewrite W2 in Ey. injection Ey as <-. lra.
Qed.
End G.
