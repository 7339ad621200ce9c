(* C104: the fast spectrum conversion of spd.rs is the long one of vspd.rs, in exact arithmetic and in f32 *)
From Coq Require Import Reals ZArith QArith Qreals Lra Lia Bool List.
From Flocq Require Import Core BinarySingleNaN.
From Verif Require Import Outcome RealOps MathModel ColorModel InterpModel VspdModel UpliftModel SpdModel XReal SpecLin FloatInst FloatProofs ErrProofs VspdProofs PropShape SpragueProofs PropSprague AlignProofs PropAlign LagrangeProofs WeightProofs PropWeights LinProofs XyzProofs PropDiffuser PropTables WhiteProofs PropWhite RefProofs PropPixel PropRef PropSpd PropKahan KahanProofs.
From Verif Require Import DataIllum DataCmf DataSpd DataChecker DataReference.
Import ListNotations.
Open Scope R_scope.
Local Notation Q := QArith_base.Q.

(* ---- the long conversion of 40 samples from 380 to 770 nm ---- *)
Section P.
Context {K : XConst}.
Lemma xyz_40 dbg fuel ill cm li lx ly lz vs : (420 <= fuel)%nat -> sources ill cm li lx ly lz -> dotp li ly <> 0 -> length vs = 40%nat ->
  let w y := Fin (100 / dotp li ly * dotp (trimw 2 1 (table 10 421 (prod li y))) vs) in
  vspd_to_xyz dbg fuel (uspd 380 770 10 vs (Uniform (Fin 10))) ill cm = Ret (Xyz (w lx) (w ly) (w lz)).
Proof.
  intros F S N LV w. rewrite (to_xyz_uniform _ _ _ _ _ _ _ _ _ 10 F S) by (reflexivity || lra). replace (Ztrunc 10) with 10%Z by (symmetry; exact (Ztrunc_IZR 10)). cbn [Z.eqb Pos.eqb]. cbv zeta.
  destruct S as (S1 & S2 & S3 & S4). pose proof (source_length _ _ S1). pose proof (source_length _ _ S2). pose proof (source_length _ _ S3). pose proof (source_length _ _ S4).
  assert (F10 : Z.to_nat (Zfloor 10) = 10%nat) by (rewrite floor10; reflexivity).
  rewrite (weighting_fin dbg fuel _ li lx ly lz 10 (even 380 10 vs) 380 770 2 1); try assumption; try lra; try reflexivity.
  - rewrite even_vals. reflexivity.
  - unfold uspd, shape. rewrite C60_trim_is_filter by (apply even_increasing; lra).
    assert (E : filter (inside 360 780) (even 380 10 vs) = even 380 10 vs).
    { assert (G : forall l s, 360 <= s -> s + INR (length l) * 10 <= 790 -> filter (inside 360 780) (even s 10 l) = even s 10 l).
      { induction l as [|v l IH]; intros s H3 H4; [reflexivity|]. rewrite even_cons. cbn [filter]. cbn [length] in H4. rewrite S_INR in H4. pose proof (pos_INR (length l)). unfold inside at 1. cbn [fst]. rewrite !Rleb_true by lra. cbn [andb]. rewrite IH by lra. reflexivity. }
      apply G; [lra|]. rewrite LV, INR_IZR_INZ. cbn [Z.of_nat Pos.of_succ_nat Pos.succ]. lra. }
    rewrite E. destruct vs as [|v0 vs]; [discriminate|]. rewrite even_cons. cbn [fst sh_interval]. do 4 f_equal.
    assert (X : forall l (d : R * R), l <> [] -> last_opt l = Some (last l d)). { induction l as [|u [|v l] IH]; intros d H3; [contradiction|reflexivity|]. exact (IH d ltac:(discriminate)). }
    assert (Y : last_opt ((380, v0) :: even (380 + 10) 10 vs) = Some (last (even (380 + 10) 10 vs) (380, v0))).
    { rewrite (X _ (380, v0)) by discriminate. f_equal. generalize (even (380 + 10) 10 vs); intros [|? ?]; reflexivity. }
    rewrite <- even_cons in Y. rewrite even_last in Y by discriminate. rewrite LV in Y. injection Y as Y. rewrite <- Y. cbn [fst]. lra.
  - symmetry. apply as_usize_int; [cbn; lra|lia].
  - rewrite F10. change (420 / 10)%nat with 42%nat. symmetry. apply as_usize_int; [rewrite !INR_IZR_INZ; cbn [Z.of_nat Pos.of_succ_nat Pos.succ]; lra|lia].
  - rewrite F10. change (420 / 10)%nat with 42%nat. lia.
Qed.
Definition fold40 (bar : list (Q * Q)) : list Z := ztrim 2 1 (ztable (zmul2 (zint (zs 10000 data_D65)) (zcmf bar))).
Definition w40 (bar : list (Q * Q)) : list R := map (fun z => IZR z / (60 * IZR norm65)) (fold40 bar).
Lemma norm65_pos : 0 < IZR norm65. Proof. apply IZR_lt. reflexivity. Qed.
Lemma dotp_sym a : forall b, dotp a b = dotp b a.
Proof. induction a as [|x a IH]; intros [|y b]; cbn; try reflexivity. rewrite IH. ring. Qed.
Lemma dotp_over k (a : list Z) : forall v, dotp (map (fun z => IZR z / k) a) v = dotp (map IZR a) v / k.
Proof. induction a as [|x a IH]; intros [|y v]; cbn; unfold Rdiv; try ring. rewrite IH. unfold Rdiv. ring. Qed.
Lemma scaled k n (a : list Z) vs : 0 < k -> 0 < n -> 100 / (n / (k * IZR 1000000000000)) * dotp (map (fun z => IZR z / (6000 * (k * IZR 1000000000000))) a) vs = dotp (map (fun z => IZR z / (60 * n)) a) vs.
Proof. intros. rewrite !dotp_over. assert (P : 0 < IZR 1000000000000) by (apply IZR_lt; reflexivity). set (m := IZR 1000000000000) in *. clearbody m. field. repeat split; lra. Qed.
Lemma xyz_w40 (OK : XConstOk K) dbg fuel vs d65 cm : (420 <= fuel)%nat -> spd_D65 = Ret d65 -> cie_1931_2_degree = Ret cm -> length vs = 40%nat ->
  vspd_to_xyz dbg fuel (uspd 380 770 10 vs (Uniform (Fin 10))) d65 cm = Ret (FinXyz (dotp (w40 data_x_bar) vs, dotp (w40 data_y_bar) vs, dotp (w40 data_z_bar) vs)).
Proof.
  intros F Ev Ec LV. destruct (C75_illuminants_and_cmf OK) as (_ & _ & _ & W65 & _).
  destruct (ill_source 10000 data_D65 780 97 eq_refl W65 ltac:(lra) ltac:(lia)) as (v' & Ev' & Si). change (vspd_table data_D65) with (spd_D65 : outcome (vspd xr)) in Ev'. rewrite Ev in Ev'. injection Ev' as <-.
  destruct (cmf_source OK data_x_bar ltac:(cbn; tauto)) as (vx & Ex & Sx). destruct (cmf_source OK data_y_bar ltac:(cbn; tauto)) as (vy & Ey & Sy). destruct (cmf_source OK data_z_bar ltac:(cbn; tauto)) as (vz & Ez & Sz).
  unfold cie_1931_2_degree in Ec. rewrite Ex, Ey, Ez in Ec. cbn [obind] in Ec. injection Ec as <-.
  pose proof (conj Si (conj Sx (conj Sy Sz)) : sources d65 (Cmf vx vy vz) _ _ _ _) as S.
  set (k := 625 * (209 * IZR 10000)) in *. assert (Pk : 0 < k) by (unfold k; lra). pose proof norm65_pos as NP.
  assert (NN : dotp (map (fun z => IZR z / k) (zint (zs 10000 data_D65))) (map (fun z => IZR z / IZR 1000000000000) (zcmf data_y_bar)) = IZR norm65 / (k * IZR 1000000000000)) by (rewrite <- norm65_eq; apply zdot_dotp; lra).
  assert (N0 : dotp (map (fun z => IZR z / k) (zint (zs 10000 data_D65))) (map (fun z => IZR z / IZR 1000000000000) (zcmf data_y_bar)) <> 0) by (rewrite NN; unfold Rdiv; apply Rmult_integral_contrapositive_currified; [lra|apply Rinv_neq_0_compat; lra]).
  rewrite (xyz_40 dbg fuel _ _ _ _ _ _ vs F S N0 LV). unfold FinXyz.
  assert (E : forall bar, 100 / dotp (map (fun z => IZR z / k) (zint (zs 10000 data_D65))) (map (fun z => IZR z / IZR 1000000000000) (zcmf data_y_bar)) * dotp (trimw 2 1 (table 10 421 (prod (map (fun z => IZR z / k) (zint (zs 10000 data_D65))) (map (fun z => IZR z / IZR 1000000000000) (zcmf bar))))) vs = dotp (w40 bar) vs).
  { intro bar. rewrite NN, ztable_prod, ztrim_ok by lra. unfold w40, fold40. clearbody k. set (zz := ztrim 2 1 _). clearbody zz. exact (scaled k (IZR norm65) zz vs Pk NP). }
  rewrite !E. reflexivity.
Qed.

(* ---- the weight tables of spd.rs ---- *)
Lemma near_x : all2 (fun z q => close_frac (14 # 1000000000000000) q z (60 * norm65)) (fold40 data_x_bar) data_W_X = true. Proof. vm_compute. reflexivity. Qed.
Lemma near_y : all2 (fun z q => close_frac (14 # 1000000000000000) q z (60 * norm65)) (fold40 data_y_bar) data_W_Y = true. Proof. vm_compute. reflexivity. Qed.
Lemma near_z : all2 (fun z q => close_frac (14 # 1000000000000000) q z (60 * norm65)) (fold40 data_z_bar) data_W_Z = true. Proof. vm_compute. reflexivity. Qed.
Lemma near_list (n : Z) (f : list Z) (t : list Q) : all2 (fun z q => close_frac (14 # 1000000000000000) q z (60 * n)) f t = true -> Forall2 (fun z q => Rabs (IZR z / (60 * IZR n) - Q2R q) <= 14 / 10 ^ 15) f t.
Proof.
  intro H. apply all2_ok in H. assert (T : Q2R (14 # 1000000000000000) = 14 / 10 ^ 15) by (clear; unfold Q2R; cbn [Qnum Qden]; lra).
  eapply f2_impl; [|exact H]. intros z q [_ P]. apply close_frac_ok in P. rewrite T, mult_IZR in P. exact P.
Qed.
Lemma near_dots n M f t : Forall2 (fun z q => Rabs (IZR z / (60 * n) - Q2R q) <= 14 / 10 ^ 15) f t -> 0 <= M -> forall vs, Forall (fun x => Rabs x <= M) vs -> Rabs (dotp (map (fun z => IZR z / (60 * n)) f) vs - dotp vs (map Q2R t)) <= INR (length t) * (14 / 10 ^ 15 * M).
Proof.
  intros FF M0. induction FF as [|z q f t Z FF IH]; intros vs B; [cbn; destruct vs; unfold Rminus; cbn; rewrite Ropp_0, Rplus_0_r, Rabs_R0; lra|].
  destruct vs as [|x vs]; [cbn [map dotp]; unfold Rminus; rewrite Ropp_0, Rplus_0_r, Rabs_R0; apply Rmult_le_pos; [apply pos_INR|lra]|].
  inversion B as [|? ? B1 B2]; subst. specialize (IH vs B2). cbn [map dotp]. change (length (q :: t)) with (S (length t)). rewrite S_INR.
  match goal with |- Rabs (?a * x + ?b - (x * ?c + ?d)) <= _ => replace (a * x + b - (x * c + d)) with ((a - c) * x + (b - d)) by ring end.
  eapply Rle_trans; [apply Rabs_triang|]. rewrite Rabs_mult. pose proof (Rmult_le_compat _ _ _ _ (Rabs_pos _) (Rabs_pos _) Z B1). lra.
Qed.
Lemma near_dotp (n : Z) f t vs M : all2 (fun z q => close_frac (14 # 1000000000000000) q z (60 * n)) f t = true -> (length t <= 40)%nat -> Forall (fun x => Rabs x <= M) vs -> 0 <= M -> Rabs (dotp vs (map Q2R t) - dotp (map (fun z => IZR z / (60 * IZR n)) f) vs) <= 1e-12 * M.
Proof.
  intros H LT B M0. apply near_list in H. pose proof (near_dots (IZR n) M f t H M0 vs B) as G. rewrite Rabs_minus_sym.
  eapply Rle_trans; [exact G|]. clear G. apply le_INR in LT. assert (E40 : INR 40 = 40) by (rewrite INR_IZR_INZ; reflexivity). rewrite E40 in LT.
  apply Rle_trans with (40 * (14 / 10 ^ 15 * M)); [apply Rmult_le_compat_r; lra|]. lra.
Qed.
Definition within (e : R) (x y z : R) (c : xyz xr) : Prop := exists a b d, c = FinXyz (a, b, d) /\ Rabs (x - a) <= e /\ Rabs (y - b) <= e /\ Rabs (z - d) <= e.
Theorem C104_exact dbg fuel (vs : list R) M : XConstOk K -> (420 <= fuel)%nat -> length vs = 40%nat -> Forall (fun x => Rabs x <= M) vs ->
  exists s d65 cm x y z c, vspd_from_values (shape_new (Fin 380) (Fin 770) (Fin 10)) (Fins vs) = Ret s /\ spd_D65 = Ret d65 /\ cie_1931_2_degree = Ret cm /\
    to_xyz_scalar vs = FinXyz (x, y, z) /\ to_xyz_avx vs = FinXyz (x, y, z) /\ vspd_to_xyz dbg fuel s d65 cm = Ret c /\ within (1e-12 * M) x y z c.
Proof.
  intros OK F LV B.
  assert (M0 : 0 <= M). { destruct vs as [|v vs]; [discriminate|]. inversion B as [|? ? H ?]; subst. pose proof (Rabs_pos v). lra. }
  destruct (C75_illuminants_and_cmf OK) as (_ & _ & _ & W65 & _). pose proof W65 as (v65 & _ & E65 & _).
  destruct (cmf_source OK data_x_bar ltac:(cbn; tauto)) as (vx & Ex & _). destruct (cmf_source OK data_y_bar ltac:(cbn; tauto)) as (vy & Ey & _). destruct (cmf_source OK data_z_bar ltac:(cbn; tauto)) as (vz & Ez & _).
  assert (Ec : cie_1931_2_degree = Ret (Cmf vx vy vz)) by (unfold cie_1931_2_degree; rewrite Ex, Ey, Ez; reflexivity).
  exists (uspd 380 770 10 vs (Uniform (Fin 10))), v65, (Cmf vx vy vz), (dotp vs WX), (dotp vs WY), (dotp vs WZ). eexists. split; [|split; [exact E65|split; [exact Ec|split; [apply C44_fast_conversion_is_weighted_sum; exact LV|split; [|split; [exact (xyz_w40 OK dbg fuel vs v65 _ F E65 Ec LV)|]]]]]].
  - change (shape_new (Fin 380) (Fin 770) (Fin 10)) with (shape 380 770 10). rewrite C50_from_values by (unfold countable; lra). destruct (Rle_dec 380 770); [|lra].
    replace (Zfloor ((770 - 380) / 10)) with 39%Z by (symmetry; apply Zfloor_imp; cbn; lra). unfold uspd, even. rewrite LV. reflexivity.
  - destruct table_lengths as (Lx & Ly & Lz). rewrite (proj2 (C45_avx_equals_scalar vs WX WY WZ LV Lx Ly Lz)). apply C44_fast_conversion_is_weighted_sum. exact LV.
  - eexists _, _, _. split; [reflexivity|]. unfold w40.
    exact (conj (near_dotp norm65 (fold40 data_x_bar) data_W_X vs M near_x (le_n 40) B M0) (conj (near_dotp norm65 (fold40 data_y_bar) data_W_Y vs M near_y (le_n 40) B M0) (near_dotp norm65 (fold40 data_z_bar) data_W_Z vs M near_z (le_n 40) B M0))).
Qed.
End P.

(* ---- f32: the tables as the compiler reads them ---- *)
Local Notation num := (b_of_Q 24 128).
Definition W32 (t : list Q) : list f32 := map num t.
Local Notation u := (/ 16777216).
Definition fit (q : Q) : bool := (good 24 128 140 (num q) && (Z.abs (zent 24 128 140 (num q) * Zpos (Qden q) - Qnum q * 2 ^ 140) * 16777216 <=? Z.abs (Qnum q) * 2 ^ 140)%Z && (Z.abs (Qnum q) <=? 20 * Zpos (Qden q))%Z)%bool.
Lemma fit_ok q : fit q = true -> is_finite (num q) = true /\ Rabs (B2R (num q) - Q2R q) <= u * Rabs (Q2R q) /\ Rabs (Q2R q) <= 20.
Proof.
  unfold fit. rewrite !andb_true_iff. intros [[G H] H2]. destruct (zent_ok 24 128 140 (num q) ltac:(lia) G) as [F E]. split; [exact F|]. apply Z.leb_le, IZR_le in H, H2. rewrite !mult_IZR, !abs_IZR in H, H2. rewrite minus_IZR, !mult_IZR, ?abs_IZR, E in H.
  set (x := B2R (num q)) in *. clearbody x. clear E F G. assert (P : 0 < IZR (Zpos (Qden q))) by (apply IZR_lt; reflexivity). unfold Q2R. set (n := IZR (Qnum q)) in *. set (d := IZR (Z.pos (Qden q))) in *. clearbody n d.
  assert (P2 : 0 < IZR (2 ^ 140)) by (apply IZR_lt; reflexivity). set (k := IZR (2 ^ 140)) in *. clearbody k.
  assert (I : 0 < / d) by (apply Rinv_0_lt_compat; exact P). rewrite !Rabs_mult, (Rabs_pos_eq (/ d)) by lra. split.
  - replace (x * k * d - n * k) with ((x - n * / d) * (k * d)) in H by (field; lra). rewrite Rabs_mult, (Rabs_pos_eq (k * d)) in H by nra.
    apply (Rmult_le_reg_r (k * d)); [nra|]. replace (u * (Rabs n * / d) * (k * d)) with (u * (Rabs n * k)) by (field; lra). lra.
  - apply (Rmult_le_reg_r d); [exact P|]. replace (Rabs n * / d * d) with (Rabs n) by (field; lra). exact H2.
Qed.
Definition up (q : Q) : Z := (Z.abs (Qnum q) * 1000 / Zpos (Qden q) + 1)%Z.
Lemma up_ok q : Rabs (Q2R q) <= IZR (up q) / 1000.
Proof.
  unfold up. pose proof (Z_div_mod_eq_full (Z.abs (Qnum q) * 1000) (Zpos (Qden q))) as D. pose proof (Z_mod_lt (Z.abs (Qnum q) * 1000) (Zpos (Qden q)) ltac:(reflexivity)) as L. set (k := (Z.abs (Qnum q) * 1000 / Zpos (Qden q))%Z) in *. set (r := ((Z.abs (Qnum q) * 1000) mod Zpos (Qden q))%Z) in *. clearbody k r.
  assert (H : (Z.abs (Qnum q) * 1000 <= Zpos (Qden q) * (k + 1))%Z) by lia. apply IZR_le in H. rewrite !mult_IZR, abs_IZR in H. assert (P : 0 < IZR (Zpos (Qden q))) by (apply IZR_lt; reflexivity).
  unfold Q2R. rewrite Rabs_mult, (Rabs_pos_eq (/ _)) by (left; apply Rinv_0_lt_compat; exact P). apply (Rmult_le_reg_r (IZR (Zpos (Qden q)))); [exact P|]. rewrite Rmult_assoc, Rinv_l by lra. lra.
Qed.
Definition mag (t : list Q) : R := fold_right (fun q a => Rabs (Q2R q) + a) 0 t.
Definition zmag (t : list Q) : Z := fold_right (fun q a => (up q + a)%Z) 0%Z t.
Lemma mag_pos t : 0 <= mag t.
Proof. induction t as [|q t IH]; [cbn; lra|]. change (mag (q :: t)) with (Rabs (Q2R q) + mag t). pose proof (Rabs_pos (Q2R q)). lra. Qed.
Lemma mag_up t : mag t <= IZR (zmag t) / 1000.
Proof. induction t as [|q t IH]; [cbn; lra|]. change (mag (q :: t)) with (Rabs (Q2R q) + mag t). change (zmag (q :: t)) with (up q + zmag t)%Z. rewrite plus_IZR. pose proof (up_ok q). lra. Qed.
Definition weights (t : list Q) : bool := ((length t =? 40)%nat && forallb fit t && (zmag t <=? 110000)%Z)%bool.
Lemma weights_x : weights data_W_X = true. Proof. vm_compute. reflexivity. Qed.
Lemma weights_y : weights data_W_Y = true. Proof. vm_compute. reflexivity. Qed.
Lemma weights_z : weights data_W_Z = true. Proof. vm_compute. reflexivity. Qed.
Lemma weights_ok t : weights t = true -> length t = 40%nat /\ Forall (fun q => fit q = true) t /\ mag t <= 110.
Proof.
  unfold weights. rewrite !andb_true_iff. intros [[L F] M]. apply Nat.eqb_eq in L. split; [exact L|]. split; [apply Forall_forall; intros q I; exact (proj1 (forallb_forall _ _) F q I)|].
  apply Z.leb_le, IZR_le in M. pose proof (mag_up t). lra.
Qed.
Definition bounded (M : R) (x : f32) : Prop := is_finite x = true /\ Rabs (B2R x) <= M.
Lemma table_dot t M : Forall (fun q => fit q = true) t -> 0 <= M -> forall v, Forall (bounded M) v ->
  Rabs (wsum v (W32 t) - dotp (map B2R v) (map Q2R t)) <= M * u * mag t /\ wabs v (W32 t) <= M * (1 + u) * mag t.
Proof.
  intros F M0. assert (Z0 : Rabs (0 - 0) = 0) by (replace (0 - 0) with 0 by ring; apply Rabs_R0).
  induction F as [|q t Fq F IH]; intros v B; [destruct v; cbn; rewrite Z0; lra|]. destruct B as [|x v [_ Bx] B].
  - cbn [W32 map wsum wabs dotp]. rewrite Z0. pose proof (mag_pos (q :: t)). assert (0 <= M * mag (q :: t)) by (apply Rmult_le_pos; assumption). lra.
  - destruct (IH v B) as [I1 I2]. destruct (fit_ok q Fq) as (_ & E & _). unfold W32 in *. cbn [map wsum wabs dotp]. change (mag (q :: t)) with (Rabs (Q2R q) + mag t). set (w := B2R (num q)) in *. set (a := B2R x) in *. set (g := Q2R q) in *.
    pose proof (Rmult_le_compat _ _ _ _ (Rabs_pos _) (Rabs_pos _) Bx E) as P. split.
    + match goal with |- Rabs (a * w + ?b - (a * g + ?c)) <= _ => replace (a * w + b - (a * g + c)) with (a * (w - g) + (b - c)) by ring end. eapply Rle_trans; [apply Rabs_triang|]. rewrite Rabs_mult. lra.
    + rewrite Rabs_mult. assert (W : Rabs w <= (1 + u) * Rabs g). { replace w with (g + (w - g)) by ring. eapply Rle_trans; [apply Rabs_triang|]. lra. }
      pose proof (Rmult_le_compat _ _ _ _ (Rabs_pos _) (Rabs_pos _) Bx W). lra.
Qed.

(* ---- nothing overflows ---- *)
Lemma fin_step (r : f32) x A : (Rabs (round radix2 (SpecFloat.fexp 24 128) ZnearestE x) < bpow radix2 128 -> is_finite r = true /\ B2R r = round radix2 (SpecFloat.fexp 24 128) ZnearestE x) -> 1 <= A <= bpow radix2 120 -> Rabs x <= A -> bounded (17 / 16 * A) r.
Proof.
  intros H [A1 A2] X. pose proof (rnd_bound 24 128 A x 0 ltac:(lra) ltac:(lia) X) as B. assert (T : bpow radix2 128 = 256 * bpow radix2 120) by (change 128%Z with (8 + 120)%Z; rewrite bpow_plus; reflexivity).
  destruct (H ltac:(lra)) as [F E]. split; [exact F|]. rewrite E. lra.
Qed.
Lemma add_bounded (x y : f32) a b c : bounded a x -> bounded b y -> a + b <= c -> 1 <= c <= bpow radix2 120 -> bounded (17 / 16 * c) (Bplus mode_NE x y).
Proof.
  intros [Fx Bx] [Fy By] H C. apply (fin_step _ (B2R x + B2R y) c); [|exact C|eapply Rle_trans; [apply Rabs_triang|]; lra].
  intro S. pose proof (plus_small 24 128 x y Fx Fy S) as F. split; [exact F|]. apply (plus_fin 24 128) in F. apply F.
Qed.
Lemma sub_bounded (x y : f32) a b c : bounded a x -> bounded b y -> a + b <= c -> 1 <= c <= bpow radix2 120 -> bounded (17 / 16 * c) (Bminus mode_NE x y).
Proof.
  intros [Fx Bx] [Fy By] H C. apply (fin_step _ (B2R x - B2R y) c); [|exact C|unfold Rminus; eapply Rle_trans; [apply Rabs_triang|]; rewrite Rabs_Ropp; lra].
  intro S. assert (F : is_finite (Bminus mode_NE x y) = true) by (pose proof (Bminus_correct 24 128 _ _ mode_NE x y Fx Fy) as Q1; cbn [round_mode] in Q1; rewrite Rlt_bool_true in Q1 by exact S; apply Q1). split; [exact F|]. apply (minus_fin 24 128) in F. apply F.
Qed.
Lemma mul_bounded (x y : f32) a b c : bounded a x -> bounded b y -> a * b <= c -> 1 <= c <= bpow radix2 120 -> bounded (17 / 16 * c) (Bmult mode_NE x y).
Proof.
  intros [Fx Bx] [Fy By] H C. apply (fin_step _ (B2R x * B2R y) c); [|exact C|rewrite Rabs_mult; pose proof (Rmult_le_compat _ _ _ _ (Rabs_pos _) (Rabs_pos _) Bx By); lra].
  intro S. pose proof (mult_small 24 128 x y Fx Fy S) as F. split; [exact F|]. apply (mult_fin 24 128) in F. apply F.
Qed.
Lemma bounded_weak a b (x : f32) : a <= b -> bounded a x -> bounded b x.
Proof. intros H [F B]. split; [exact F|lra]. Qed.
Lemma kahan_bounded l : forall (a c : f32) A, 1 <= A -> A * 5 ^ length l <= bpow radix2 118 -> bounded A a -> bounded (2 * A) c -> Forall (bounded A) l -> is_finite (fst (fold_left (kstep 24 128) l (a, c))) = true.
Proof.
  induction l as [|p l IH]; intros a c A A1 H Ba Bc B; [exact (proj1 Ba)|]. inversion B as [|? ? Bp B']; subst. change (5 ^ length (p :: l)) with (5 * 5 ^ length l) in H.
  assert (P5 : 1 <= 5 ^ length l) by (apply pow_R1_Rle; lra). assert (A5 : A <= A * 5 ^ length l) by nra.
  assert (T : bpow radix2 120 = 4 * bpow radix2 118) by (change 120%Z with (2 + 118)%Z; rewrite bpow_plus; reflexivity).
  cbn [fold_left]. unfold kstep at 2.
  pose proof (sub_bounded p c A (2 * A) (3 * A) Bp Bc ltac:(lra) ltac:(lra)) as By. set (y := Bminus mode_NE p c) in *.
  pose proof (add_bounded a y A (17 / 16 * (3 * A)) (4.2 * A) Ba By ltac:(lra) ltac:(lra)) as Bt. set (t := Bplus mode_NE a y) in *.
  pose proof (sub_bounded t a (17 / 16 * (4.2 * A)) A (5.5 * A) Bt Ba ltac:(lra) ltac:(lra)) as Bd. set (d := Bminus mode_NE t a) in *.
  pose proof (sub_bounded d y (17 / 16 * (5.5 * A)) (17 / 16 * (3 * A)) (9.2 * A) Bd By ltac:(lra) ltac:(lra)) as Be.
  apply (IH _ _ (5 * A)); [lra|lra| | |].
  - eapply bounded_weak; [|exact Bt]. lra.
  - eapply bounded_weak; [|exact Be]. lra.
  - eapply Forall_impl; [|exact B']. intros x. apply bounded_weak. lra.
Qed.
Definition million_R : R := 1000000.
Lemma prods_bounded t v M : Forall (fun q => fit q = true) t -> 0 <= M <= million_R -> Forall (bounded M) v -> Forall (bounded 24000000) (prods v (W32 t)).
Proof.
  intros F MM B. unfold million_R in MM. revert v B. induction F as [|q t Fq F IH]; intros v B; [destruct v; constructor|]. destruct B as [|x v Bx B]; [constructor|]. cbn [W32 map combine]. constructor; [|exact (IH v B)].
  destruct (fit_ok q Fq) as (F1 & F2 & F3). eapply bounded_weak; [|apply (mul_bounded x (num q) M 21 21000000)].
  - lra.
  - exact Bx.
  - split; [exact F1|]. replace (B2R (num q)) with (Q2R q + (B2R (num q) - Q2R q)) by ring. eapply Rle_trans; [apply Rabs_triang|]. lra.
  - lra.
  - split; [lra|]. change 120%Z with (30 + 90)%Z. rewrite bpow_plus. assert (1 <= bpow radix2 90) by (change 1 with (bpow radix2 0); apply bpow_le; lia). assert (bpow radix2 30 = 1073741824) by (cbn; lra). nra.
Qed.

Section F.
Context (L : libm f32).
Local Instance O32f : RealOps f32 := f32_ops L.
Lemma avx_finite (w v : list f32) : length v = 40%nat -> length w = 40%nat -> Forall (bounded 24000000) (prods v w) -> is_finite (avx_channel w v) = true.
Proof.
  intros Hv Hw B. destruct (list40 v Hv) as (v0 & v1 & v2 & v3 & v4 & v5 & v6 & v7 & v8 & v9 & v10 & v11 & v12 & v13 & v14 & v15 & v16 & v17 & v18 & v19 & v20 & v21 & v22 & v23 & v24 & v25 & v26 & v27 & v28 & v29 & v30 & v31 & v32 & v33 & v34 & v35 & v36 & v37 & v38 & v39 & ->).
  destruct (list40 w Hw) as (w0 & w1 & w2 & w3 & w4 & w5 & w6 & w7 & w8 & w9 & w10 & w11 & w12 & w13 & w14 & w15 & w16 & w17 & w18 & w19 & w20 & w21 & w22 & w23 & w24 & w25 & w26 & w27 & w28 & w29 & w30 & w31 & w32 & w33 & w34 & w35 & w36 & w37 & w38 & w39 & ->). clear Hv Hw.
  rewrite avx_tree. cbn [combine map] in B. repeat (let b := fresh "B" in apply Forall_cons_iff in B; destruct B as [b B]). clear B.
  pose (P (d : nat) (x : f32) := bounded (24000000 * 3 ^ d) x). assert (T : 24000000 * 3 ^ 7 <= bpow radix2 120).
  { change 120%Z with (40 + 80)%Z. rewrite bpow_plus. assert (1 <= bpow radix2 80) by (change 1 with (bpow radix2 0); apply bpow_le; lia). assert (bpow radix2 40 = 1099511627776) by (cbn; lra). nra. }
  assert (A : forall d x y, (d <= 6)%nat -> P d x -> P d y -> P (S d) (@radd _ O32f x y)).
  { intros d x y D X Y. unfold P in *. pose proof (pow_R1_Rle 3 d ltac:(lra)) as P1. pose proof (Rle_pow 3 d 6 ltac:(lra) D) as P2. change (3 ^ 7) with (3 * 3 ^ 6) in T. change (3 ^ S d) with (3 * 3 ^ d).
    eapply bounded_weak; [|apply (add_bounded x y _ _ (24000000 * 3 ^ d + 24000000 * 3 ^ d) X Y)]; lra. }
  assert (Lf : forall d (x : f32), bounded 24000000 x -> P d x). { intros d x. apply bounded_weak. pose proof (pow_R1_Rle 3 d ltac:(lra)). lra. }
  match goal with |- is_finite ?r = true => assert (G : P 7%nat r) by (repeat (apply A; [lia| |]); apply Lf; assumption) end. exact (proj1 G).
Qed.
Definition fast_scalar (v : list f32) : xyz f32 := spd_to_xyz_scalar (W32 data_W_X) (W32 data_W_Y) (W32 data_W_Z) v.
Definition fast_avx (v : list f32) : xyz f32 := spd_to_xyz_avx (W32 data_W_X) (W32 data_W_Y) (W32 data_W_Z) v.
Definition channel_near (c : R) (x : f32) (t : list Q) (v : list f32) (M : R) : Prop := is_finite x = true /\ Rabs (B2R x - dotp (map B2R v) (map Q2R t)) <= c * M + bpow radix2 (-143).
Lemma near_sum c k x t v M d : weights t = true -> Forall (bounded M) v -> 0 <= M -> (0 <= c <= 8) -> k <= 80 -> (c + 1.1) * 110 * u <= d -> is_finite x = true -> sums_to c k x v (W32 t) -> channel_near d x t v M.
Proof.
  intros W B M0 C K D F H. split; [exact F|]. specialize (H F). destruct (weights_ok t W) as (_ & Ft & G). destruct (table_dot t M Ft M0 v B) as [T1 T2]. pose proof (mag_pos t) as G0. pose proof (wabs_pos v (W32 t)) as W0.
  change (bpow radix2 (-24)) with u in H. assert (E : 80 * bpow radix2 (-150) <= bpow radix2 (-143)). { change (-143)%Z with (7 + -150)%Z. rewrite bpow_plus. change (bpow radix2 7) with 128. pose proof (bpow_gt_0 radix2 (-150)). lra. }
  pose proof (bpow_gt_0 radix2 (-150)) as P. assert (K2 : k * bpow radix2 (-150) <= 80 * bpow radix2 (-150)) by (apply Rmult_le_compat_r; lra).
  set (s := wsum v (W32 t)) in *. set (a := wabs v (W32 t)) in *. set (e := dotp _ _) in *. set (m := mag t) in *. clearbody s a e m.
  replace (B2R x - e) with ((B2R x - s) + (s - e)) by ring. eapply Rle_trans; [apply Rabs_triang|].
  assert (Mm : 0 <= M * m <= M * 110) by (split; [apply Rmult_le_pos; lra|apply Rmult_le_compat_l; lra]).
  assert (X1 : c * u * a <= c * u * (M * (1 + u) * m)) by (apply Rmult_le_compat_l; [lra|exact T2]).
  assert (X2 : c * u * (M * (1 + u) * m) + M * u * m <= (c + 1.1) * 110 * u * M).
  { replace (c * u * (M * (1 + u) * m) + M * u * m) with ((c * (1 + u) + 1) * u * (M * m)) by ring. replace ((c + 1.1) * 110 * u * M) with ((c + 1.1) * u * (M * 110)) by ring. apply Rmult_le_compat; lra. }
  assert (X3 : (c + 1.1) * 110 * u * M <= d * M) by (apply Rmult_le_compat_r; lra). lra.
Qed.
Lemma v40_ok t : weights t = true -> length (W32 t) = 40%nat.
Proof. intro W. unfold W32. rewrite map_length. apply weights_ok, W. Qed.
Lemma fast_near v M : length v = 40%nat -> Forall (bounded M) v -> M <= million_R ->
  (let r := fast_scalar v in channel_near 5.4e-5 (xyz_x r) data_W_X v M /\ channel_near 5.4e-5 (xyz_y r) data_W_Y v M /\ channel_near 5.4e-5 (xyz_z r) data_W_Z v M)
  /\ (let r := fast_avx v in channel_near 6e-5 (xyz_x r) data_W_X v M /\ channel_near 6e-5 (xyz_y r) data_W_Y v M /\ channel_near 6e-5 (xyz_z r) data_W_Z v M).
Proof.
  intros LV B MM. assert (M0 : 0 <= M). { destruct v as [|x v]; [discriminate|]. inversion B as [|? ? [_ H] ?]; subst. pose proof (Rabs_pos (B2R x)). lra. }
  pose proof (v40_ok _ weights_x) as Lx. pose proof (v40_ok _ weights_y) as Ly. pose proof (v40_ok _ weights_z) as Lz.
  pose proof (prods_bounded _ v M (proj1 (proj2 (weights_ok _ weights_x))) (conj M0 MM) B) as Px. pose proof (prods_bounded _ v M (proj1 (proj2 (weights_ok _ weights_y))) (conj M0 MM) B) as Py. pose proof (prods_bounded _ v M (proj1 (proj2 (weights_ok _ weights_z))) (conj M0 MM) B) as Pz.
  assert (N40 : 2 * INR (length v) <= 80) by (rewrite LV, INR_IZR_INZ; cbn [Z.of_nat Pos.of_succ_nat Pos.succ]; lra).
  assert (N20 : (length v <= 2 ^ 20)%nat) by (rewrite LV; apply Nat.le_trans with (2 ^ 6)%nat; [apply Nat.leb_le; reflexivity|apply Nat.pow_le_mono_r; lia]).
  destruct (C80_scalar_accurate L _ _ _ v (eq_trans Lx (eq_sym LV)) (eq_trans Ly (eq_sym LV)) (eq_trans Lz (eq_sym LV)) N20) as (S1 & S2 & S3).
  destruct (C80_avx_accurate L _ _ _ v LV Lx Ly Lz) as (A1 & A2 & A3).
  assert (Fk : forall t, length (W32 t) = 40%nat -> Forall (bounded 24000000) (prods v (W32 t)) -> is_finite (fst (fold_left (kstep 24 128) (prods v (W32 t)) (B754_zero false, B754_zero false))) = true).
  { intros t Lt Pt. apply (kahan_bounded _ _ _ 24000000); [lra| |split; [reflexivity|cbn [B2R]; rewrite Rabs_R0; lra]|split; [reflexivity|cbn [B2R]; rewrite Rabs_R0; lra]|exact Pt].
    rewrite map_length, combine_length, LV, Lt. change (Nat.min 40 40) with 40%nat. rewrite pow_IZR, <- mult_IZR. change (bpow radix2 118) with (IZR (2 ^ 118)). apply IZR_le, Z.leb_le. vm_compute. reflexivity. }
  split; cbv zeta.
  - destruct (scalar_terms L v _ _ _ (eq_trans Lx (eq_sym LV)) (eq_trans Ly (eq_sym LV)) (eq_trans Lz (eq_sym LV))) as (T1 & T2 & T3).
    assert (E : fast_scalar v = Xyz (fst (fold_left (kstep 24 128) (prods v (W32 data_W_X)) (B754_zero false, B754_zero false))) (fst (fold_left (kstep 24 128) (prods v (W32 data_W_Y)) (B754_zero false, B754_zero false))) (fst (fold_left (kstep 24 128) (prods v (W32 data_W_Z)) (B754_zero false, B754_zero false)))).
    { unfold fast_scalar, spd_to_xyz_scalar. cbv zeta in T1, T2, T3 |- *. change O32f with (O32i L). rewrite (zero32 L). set (ts := map (fun '((s, x), (y, z)) => _) _) in *. rewrite (kahan_channels L). cbv zeta. cbn [fst]. rewrite T1, T2, T3. reflexivity. }
    unfold fast_scalar in E. change O32f with (O32i L) in E. unfold fast_scalar. change O32f with (O32i L). 
    split; [|split]; (eapply near_sum; [first [exact weights_x|exact weights_y|exact weights_z]|exact B|exact M0| |exact N40| | |first [exact S1|exact S2|exact S3]]; [lra|lra|rewrite E; cbn [xyz_x xyz_y xyz_z]; apply Fk; assumption]).
  - split; [|split]; (eapply near_sum; [first [exact weights_x|exact weights_y|exact weights_z]|exact B|exact M0| |apply Rle_refl| | |first [exact A1|exact A2|exact A3]]; [lra|lra|apply avx_finite; assumption]).
Qed.
Definition near_xyz (e : R) (r : xyz f32) (c : xyz xr) : Prop :=
  is_finite (xyz_x r) = true /\ is_finite (xyz_y r) = true /\ is_finite (xyz_z r) = true /\ within e (B2R (xyz_x r)) (B2R (xyz_y r)) (B2R (xyz_z r)) c.
Context {K : XConst}.
Theorem C104_float dbg fuel (v : list f32) M : XConstOk K -> (420 <= fuel)%nat -> length v = 40%nat -> Forall (fun x => is_finite x = true /\ Rabs (B2R x) <= M) v -> M <= 1000000 ->
  exists s d65 cm c, vspd_from_values (shape_new (Fin 380) (Fin 770) (Fin 10)) (Fins (map B2R v)) = Ret s /\ spd_D65 = Ret d65 /\ cie_1931_2_degree = Ret cm /\ vspd_to_xyz dbg fuel s d65 cm = Ret c
    /\ near_xyz (5.5e-5 * M + bpow radix2 (-143)) (fast_scalar v) c /\ near_xyz (6.1e-5 * M + bpow radix2 (-143)) (fast_avx v) c.
Proof.
  intros OK F LV B MM. assert (M0 : 0 <= M). { destruct v as [|w v]; [discriminate LV|]. inversion B as [|? ? [_ H] ?]; subst. pose proof (Rabs_pos (B2R w)). lra. }
  destruct (C104_exact dbg fuel (map B2R v) M OK F ltac:(rewrite map_length; exact LV) ltac:(apply Forall_map; eapply Forall_impl; [|exact B]; intros x [_ H]; exact H)) as (s & d65 & cm & x & y & z & c & E1 & E2 & E3 & E4 & _ & E5 & E6).
  exists s, d65, cm, c. split; [exact E1|]. split; [exact E2|]. split; [exact E3|]. split; [exact E5|].
  rewrite (C44_fast_conversion_is_weighted_sum (map B2R v)) in E4 by (rewrite map_length; exact LV). unfold FinXyz in E4. injection E4 as <- <- <-. destruct E6 as (a & b & d & -> & Ea & Eb & Ed).
  destruct (fast_near v M LV B MM) as [(S1 & S2 & S3) (A1 & A2 & A3)].
  assert (G : forall c' e' w t k q, channel_near c' w t v M -> k = dotp (map B2R v) (map Q2R t) -> Rabs (k - q) <= 1e-12 * M -> c' + 1e-12 <= e' -> is_finite w = true /\ Rabs (B2R w - q) <= e' * M + bpow radix2 (-143)).
  { intros c' e' w t k q [Fw Hw] Ek Hq Hc. rewrite <- Ek in Hw. split; [exact Fw|]. replace (B2R w - q) with ((B2R w - k) + (k - q)) by ring. eapply Rle_trans; [apply Rabs_triang|]. assert ((c' + 1e-12) * M <= e' * M) by (apply Rmult_le_compat_r; lra). lra. }
  split.
  - destruct (G _ 5.5e-5 _ _ _ _ S1 eq_refl Ea ltac:(lra)) as [F1 G1]. destruct (G _ 5.5e-5 _ _ _ _ S2 eq_refl Eb ltac:(lra)) as [F2 G2]. destruct (G _ 5.5e-5 _ _ _ _ S3 eq_refl Ed ltac:(lra)) as [F3 G3]. repeat split; try assumption. exists a, b, d. repeat split; assumption.
  - destruct (G _ 6.1e-5 _ _ _ _ A1 eq_refl Ea ltac:(lra)) as [F1 G1]. destruct (G _ 6.1e-5 _ _ _ _ A2 eq_refl Eb ltac:(lra)) as [F2 G2]. destruct (G _ 6.1e-5 _ _ _ _ A3 eq_refl Ed ltac:(lra)) as [F3 G3]. repeat split; try assumption. exists a, b, d. repeat split; assumption.
Qed.
End F.

(* ---- the colour checker: the spectra of spd.rs and the reference values of colorchecker.rs ---- *)
Local Notation num64 := (b_of_Q 53 1024).
Definition ulp1 (x y : f32) : Prop := is_finite x = true /\ is_finite y = true /\ Rabs (B2R x - B2R y) <= ulp radix2 (SpecFloat.fexp 24 128) (B2R y).
Definition ulp1b (x y : f32) : bool :=
  match x, y with B754_finite s m e _, B754_finite s' m' e' _ => (Bool.eqb s s' && (e =? e')%Z && (Z.abs (Zpos m - Zpos m') <=? 1)%Z)%bool | _, _ => false end.
Lemma ulp1b_ok x y : ulp1b x y = true -> ulp1 x y.
Proof.
  intro H. destruct x as [|?| |s m e B], y as [|?| |s' m' e' B']; try discriminate. cbn [ulp1b] in H. rewrite !andb_true_iff in H. destruct H as [[S E] M]. apply Bool.eqb_prop in S. apply Z.eqb_eq in E. apply Z.leb_le, IZR_le in M. subst s' e'. rewrite abs_IZR, minus_IZR in M.
  split; [reflexivity|]. split; [reflexivity|]. cbn [B2R]. assert (C : canonical radix2 (SpecFloat.fexp 24 128) (Float radix2 (cond_Zopp s (Zpos m')) e)) by (apply (canonical_canonical_mantissa 24 128), (proj1 (andb_prop _ _ B'))).
  rewrite (ulp_canonical radix2 (SpecFloat.fexp 24 128) (cond_Zopp s (Zpos m')) e ltac:(destruct s; discriminate) C). unfold F2R. cbn [Fnum Fexp]. pose proof (bpow_gt_0 radix2 e) as P. rewrite <- Rmult_minus_distr_r, Rabs_mult, (Rabs_pos_eq (bpow radix2 e)) by lra.
  rewrite <- (Rmult_1_l (bpow radix2 e)) at 2. apply Rmult_le_compat_r; [lra|]. destruct s; cbn [cond_Zopp]; [rewrite !opp_IZR; replace (- IZR (Z.pos m) - - IZR (Z.pos m')) with (- (IZR (Z.pos m) - IZR (Z.pos m'))) by ring; rewrite Rabs_Ropp|]; exact M.
Qed.
Definition near_ref (r : xyz f32) (q : Q * Q * Q) : Prop :=
  ulp1 (xyz_x r) (f64_to_f32 (num64 (fst (fst q)))) /\ ulp1 (xyz_y r) (f64_to_f32 (num64 (snd (fst q)))) /\ ulp1 (xyz_z r) (f64_to_f32 (num64 (snd q))).
Definition near_refb (r : xyz f32) (q : Q * Q * Q) : bool :=
  (ulp1b (xyz_x r) (f64_to_f32 (num64 (fst (fst q)))) && ulp1b (xyz_y r) (f64_to_f32 (num64 (snd (fst q)))) && ulp1b (xyz_z r) (f64_to_f32 (num64 (snd q))))%bool.
Lemma near_refb_ok r q : near_refb r q = true -> near_ref r q.
Proof. unfold near_refb. rewrite !andb_true_iff. intros [[A B] C]. split; [|split]; apply ulp1b_ok; assumption. Qed.
Definition same32 (p : Q) (q : Q) : bool := match num p, num q with B754_finite s m e _, B754_finite s' m' e' _ => (Bool.eqb s s' && (e =? e')%Z && (m =? m')%positive)%bool | _, _ => false end.
Lemma same32_ok p q : same32 p q = true -> is_finite (num p) = true /\ B2R (num p) = B2R (num q).
Proof.
  unfold same32. destruct (num p) as [|?| |s m e B], (num q) as [|?| |s' m' e' B']; try discriminate. rewrite !andb_true_iff. intros [[S E] M]. apply Bool.eqb_prop in S. apply Z.eqb_eq in E. apply Pos.eqb_eq in M. subst. split; reflexivity.
Qed.
Definition padded (s : list (Q * Q)) : list Q := map snd s ++ repeat (last (map snd s) 0%Q) 4.
Lemma babel_same : all2 (fun p s => all2 same32 p (padded s)) data_babel data_spectral = true.
Proof. vm_compute. reflexivity. Qed.
Lemma babel_scalar (L : libm f32) : all2 (fun p r => near_refb (fast_scalar L (map num p)) r) data_babel data_XYZ_D65 = true.
Proof. vm_compute. reflexivity. Qed.
Lemma babel_avx (L : libm f32) : all2 (fun p r => near_refb (fast_avx L (map num p)) r) data_babel data_XYZ_D65 = true.
Proof. vm_compute. reflexivity. Qed.
Lemma f2_and {A B} (P P' : A -> B -> Prop) l m : Forall2 P l m -> Forall2 P' l m -> Forall2 (fun x y => P x y /\ P' x y) l m.
Proof. intros F. induction F; intro G; inversion G; subst; constructor; [split; assumption|apply IHF; assumption]. Qed.
(* The 24 spectra of the tests of spd.rs are, as f32 values, those of the colour checker with the last
   sample repeated to 770 nm; on each of them both conversions give the reference XYZ to one ulp *)
Theorem C104_patches (L : libm f32) :
  Forall2 (fun p s => Forall2 (fun a b => is_finite (num a) = true /\ B2R (num a) = B2R (num b)) p (map snd s ++ repeat (last (map snd s) 0%Q) 4)) data_babel data_spectral
  /\ Forall2 (fun p r => near_ref (fast_scalar L (map num p)) r /\ near_ref (fast_avx L (map num p)) r) data_babel data_XYZ_D65.
Proof.
  split.
  - eapply f2_impl; [|exact (all2_ok _ _ _ babel_same)]. intros p s [_ H]. cbv beta in H. apply all2_ok in H. eapply f2_impl; [|exact H]. intros a b [_ H']. apply same32_ok, H'.
  - apply f2_and; [eapply f2_impl; [|exact (all2_ok _ _ _ (babel_scalar L))]|eapply f2_impl; [|exact (all2_ok _ _ _ (babel_avx L))]]; intros p r [_ H]; apply near_refb_ok, H.
Qed.

(* the hypotheses of C104_float hold of a flat spectrum, and Y of it is 100 to one unit in the last place *)
Example C104_example (L : libm f32) : let v := repeat (num 1) 40 in
  Forall (fun x => is_finite x = true /\ Rabs (B2R x) <= 1) v /\ ulp1 (xyz_y (fast_scalar L v)) (num 100) /\ ulp1 (xyz_y (fast_avx L v)) (num 100).
Proof.
  split; [|split; apply ulp1b_ok; vm_compute; reflexivity]. apply Forall_forall. intros x H. apply repeat_spec in H. subst x. split; [reflexivity|].
  replace (num 1) with (Bone : f32) by (apply B2SF_inj; reflexivity). rewrite (Bone_correct 24 128). rewrite Rabs_R1. lra.
Qed.

Print Assumptions C104_exact.
Print Assumptions C104_float.
Print Assumptions C104_patches.
