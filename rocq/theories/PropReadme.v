(* C102: the spectral example of the documentation, for every patch of the colour checker *)
From Coq Require Import Reals ZArith QArith Qreals Lra Lia Bool List.
From Flocq Require Import Core BinarySingleNaN.
From Verif Require Import Outcome RealOps MathModel ColorModel AdaptModel SpaceModel TransformModel InterpModel VspdModel UpliftModel XReal SpecLin FloatInst FloatProofs ErrProofs CurveProofs PropCurve PropSelf MatProofs AdaptProofs SpaceProofs PropSpace PropTransform ConvMat ConvProofs PropConv PowProofs PropRef PropRefEnc SpragueErrProofs PropInterp GridProofs PropXyzFloat PropXyzTables PropChecker.
From Verif Require Import DataIllum DataCmf DataChecker DataReference.
Import ListNotations.
Open Scope R_scope.
Local Notation f64 := (binary_float 53 1024).
Local Notation Q := QArith_base.Q.

(* lib.rs 42-62, README.md: spectrum -> XYZ under D65 -> linear sRGB -> encoded -> 8 bits *)
Definition swatch {T} {O : RealOps T} (dbg : bool) (fuel : nat) (l : list (Q * Q)) : outcome rgbu :=
  let! spd := vspd_table l in
  let! d65 := spd_D65 in
  let! cm := cie_1931_2_degree in
  let! c := vspd_to_xyz dbg fuel spd d65 cm in
  let! xf := xyz_to_rgb_matrix (cs_white SRGB) SRGB in
  Ret (rgb_to_u8 (cs_encode SRGB (xyz_to_rgb xf c))).
Definition chart : list rgbu :=
  [Rgb 115 82 68; Rgb 195 149 128; Rgb 93 123 157; Rgb 91 108 65; Rgb 130 129 175; Rgb 98 191 170; Rgb 220 123 46; Rgb 72 92 168; Rgb 194 84 97; Rgb 91 59 104; Rgb 161 189 62; Rgb 229 161 40;
   Rgb 42 63 147; Rgb 72 149 72; Rgb 175 50 56; Rgb 238 200 22; Rgb 188 84 150; Rgb 0 137 166; Rgb 245 245 240; Rgb 201 202 201; Rgb 161 162 162; Rgb 120 121 121; Rgb 83 85 85; Rgb 50 50 51]%Z.

(* a linear value within a millionth of x is coded c, with room to spare *)
Definition delta : Q := 1 # 1000000.
Definition code_of (e : Q) : Q := ((e / 255 + 0.055) / 1.055)%Q.
Definition byte_check (x : Q) (c : Z) : bool :=
  if Qle_bool (x + delta) 0 then (Z.eqb c 0 && Qle_bool (-5) x)%bool
  else (Qle_bool x 5 && negb (Qle_bool (x - delta) 0.0031308) && (1 <=? c)%Z && (c <=? 254)%Z && root_check 5 12 (x - delta) (code_of (inject_Z c - 0.49)) 2 && root_check 5 12 (x + delta) 0 (code_of (inject_Z c + 0.49)))%bool.
Local Notation enc := (encR 12.92 0.055 1.055 2.4 0.0031308).
Lemma code_of_ok e : Q2R (code_of e) = (Q2R e / 255 + 0.055) / 1.055.
Proof. unfold code_of. rewrite Q2R_div by discriminate. rewrite Q2R_plus, Q2R_div by discriminate. replace (Q2R 255) with 255 by (clear; q2r; lra). reflexivity. Qed.
Lemma q2r_int z : Q2R (inject_Z z) = IZR z. Proof. unfold Q2R, inject_Z. cbn. lra. Qed.
Lemma byte_ok x c y : byte_check x c = true -> Rabs (y - Q2R x) <= / 1000000 -> Rabs (clampR (enc y) * 255 - IZR c) <= 0.49 /\ enc y < 1 /\ Rabs (Q2R x) <= 5.
Proof.
  intros B H. apply Rabs_le_inv in H. assert (DL : Q2R delta = / 1000000) by (clear; unfold delta; q2r; lra). unfold byte_check in B. destruct (Qle_bool (x + delta) 0) eqn:C.
  - apply qle_t in C. rewrite Q2R_plus, DL in C. replace (Q2R 0) with 0 in C by (clear; q2r; lra). apply andb_true_iff in B. destruct B as [B BX]. apply qle_t in BX. replace (Q2R (-5)) with (-5) in BX by (clear; q2r; lra). apply Z.eqb_eq in B. subst c. unfold encR. destruct (Rle_dec y 0.0031308) as [_|N]; [|exfalso; lra]. rewrite clampR_low by lra. split; [apply Rabs_le; lra|]. split; [lra|apply Rabs_le; lra].
  - clear C. rewrite !andb_true_iff in B. destruct B as [[[[[BX B1] B2] B3] B4] B5]. apply qle_t in BX. replace (Q2R 5) with 5 in BX by (clear; q2r; lra). apply negb_true_iff, qle_f in B1. rewrite Q2R_minus, DL in B1. apply Z.leb_le, IZR_le in B2, B3. apply root_check_ok in B4, B5. destruct B4 as [P1 [B4 _]]. destruct B5 as [P2 [_ B5]].
    rewrite code_of_ok in B4, B5. rewrite Q2R_minus in P1. rewrite !Q2R_minus in B4. rewrite Q2R_plus in P2. rewrite !Q2R_plus in B5. rewrite q2r_int in B4, B5. rewrite DL in *.
    unfold encR. destruct (Rle_dec y 0.0031308) as [N|_]; [exfalso; lra|]. replace (/ 2.4) with (5 / 12) by lra.
    pose proof (Rle_Rpower_l (Q2R x - / 1000000) y (5 / 12) ltac:(lra) ltac:(lra)) as M1. pose proof (Rle_Rpower_l y (Q2R x + / 1000000) (5 / 12) ltac:(lra) ltac:(lra)) as M2.
    set (p1 := Rpower (Q2R x - / 1000000) (5 / 12)) in *. set (p2 := Rpower (Q2R x + / 1000000) (5 / 12)) in *. set (p := Rpower y (5 / 12)) in *. clearbody p p1 p2. assert (X5 : Rabs (Q2R x) <= 5) by (apply Rabs_le; lra). clear P1 P2 B1 BX.
    rewrite clampR_mid by lra. split; [apply Rabs_le; lra|]. split; [lra|exact X5].
Qed.
Definition bytes_check (r : Q * Q * Q) (c : rgbu) : bool := (byte_check (fst (fst r)) (rgb_r c) && byte_check (snd (fst r)) (rgb_g c) && byte_check (snd r) (rgb_b c))%bool.
Lemma chart_check : all2 bytes_check data_SRGB_LINEAR chart = true.
Proof. vm_compute. reflexivity. Qed.
(* XYZ references lie in 1 .. 99 *)
Definition plain (q : Q * Q * Q) : bool := (Qle_bool 1 (fst (fst q)) && Qle_bool (fst (fst q)) 99 && Qle_bool 1 (snd (fst q)) && Qle_bool (snd (fst q)) 99 && Qle_bool 1 (snd q) && Qle_bool (snd q) 99)%bool.
Lemma plain_all : forallb plain data_XYZ_D65 = true. Proof. vm_compute. reflexivity. Qed.

(* the matrix is the one printed in the code *)
Definition srgb_i : imat := IM (Mat33 32406 (-15372) (-4986) (-9689) 18758 415 557 (-2040) 10570)%Z 10000.
Lemma srgb_same : same_mat srgb_i (fwd65 (nth 0 qrefs qalexa)) = true. Proof. vm_compute. reflexivity. Qed.
Lemma srgb_lin_check : all2 (mat_check (1 # 1000000000000000) (over100 srgb_i)) data_XYZ_D65 data_SRGB_LINEAR = true.
Proof. vm_compute. reflexivity. Qed.
Definition vnear (e : R) (v w : vec) : Prop := Rabs (v0 v - v0 w) <= e /\ Rabs (v1 v - v1 w) <= e /\ Rabs (v2 v - v2 w) <= e.
Lemma srgb_lip v w e : vnear e v w -> vnear (6 * e) (mapp (toR (toQ srgb_i)) v) (mapp (toR (toQ srgb_i)) w).
Proof.
  intros (A & B & C). destruct v as [[x y] z], w as [[x' y'] z']. unfold v0, v1, v2 in A, B, C. cbn [fst snd] in A, B, C. apply Rabs_le_inv in A, B, C.
  unfold vnear, v0, v1, v2, srgb_i, toQ, toR, mapp. cbn [fst snd]. split; [|split]; apply Rabs_le; clear - A B C; q2r; lra.
Qed.
Lemma srgb_near v q r e : mat_check (1 # 1000000000000000) (over100 srgb_i) q r = true -> vnear e v (vscale (/ 100) (qvec q)) -> vnear (6 * e + / 10 ^ 15) (mapp (toR (toQ srgb_i)) v) (qvec r).
Proof.
  intros M H. apply mat_check_ok in M. destruct M as (x & y & z & E & A & B & C). rewrite over100_ok in E. apply srgb_lip in H. rewrite E in H. destruct H as (H1 & H2 & H3). rewrite tol15 in *.
  unfold vnear, qvec, v0, v1, v2 in *. cbn [fst snd] in *. apply Rabs_le_inv in A, B, C, H1, H2, H3. split; [|split]; apply Rabs_le; lra.
Qed.
Lemma f2_comp {A B C} (P : A -> B -> Prop) (P' : B -> C -> Prop) l : forall m n, Forall2 P l m -> Forall2 P' m n -> Forall2 (fun x z => exists y, P x y /\ P' y z) l n.
Proof. induction l as [|x l IH]; intros m n F G; inversion F; subst; inversion G; subst; constructor; [eexists; split; eassumption|eapply IH; eassumption]. Qed.
Lemma f2_and {A B} (P P' : A -> B -> Prop) l : forall m, Forall2 P l m -> Forall2 P' l m -> Forall2 (fun x y => P x y /\ P' x y) l m.
Proof. induction l as [|x l IH]; intros m F G; inversion F; subst; inversion G; subst; constructor; [split; assumption|apply IH; assumption]. Qed.
Lemma omap_f2 {A B} (f : A -> outcome B) l : forall m, Forall2 (fun x y => f x = Ret y) l m -> omap f l = Ret m.
Proof. induction l as [|x l IH]; intros m F; inversion F; subst; [reflexivity|]. cbn [omap]. match goal with H : f x = _ |- _ => rewrite H end. cbn [obind]. erewrite IH by eassumption. reflexivity. Qed.
(* everything known of a patch: reference XYZ, linear reference, bytes *)
Definition patch (l : list (Q * Q)) (q : Q * Q * Q) (r : Q * Q * Q) (c : rgbu) : Prop :=
  In l data_spectral /\ plain q = true /\ mat_check (1 # 1000000000000000) (over100 srgb_i) q r = true /\ bytes_check r c = true.
Lemma all_patches : Forall2 (fun l c => exists q r, patch l q r c /\ forall (K : XConst) dbg fuel, XConstOk K -> (420 <= fuel)%nat -> forall sp d65 cm, vspd_table l = Ret sp -> spd_D65 = Ret d65 -> cie_1931_2_degree = Ret cm ->
  exists x y z, vspd_to_xyz dbg fuel sp d65 cm = Ret (Xyz (Fin x) (Fin y) (Fin z)) /\ vnear (2 / 10 ^ 14) (x, y, z) (qvec q)) data_spectral chart.
Proof.
  assert (X : Forall2 (fun l q => (In l data_spectral /\ In q data_XYZ_D65) /\ forall (K : XConst) dbg fuel, XConstOk K -> (420 <= fuel)%nat -> forall sp d65 cm, vspd_table l = Ret sp -> spd_D65 = Ret d65 -> cie_1931_2_degree = Ret cm ->
    exists x y z, vspd_to_xyz dbg fuel sp d65 cm = Ret (Xyz (Fin x) (Fin y) (Fin z)) /\ vnear (2 / 10 ^ 14) (x, y, z) (qvec q)) data_spectral data_XYZ_D65).
  { assert (G : forall (K : XConst) dbg fuel, XConstOk K -> (420 <= fuel)%nat -> forall d65 cm, spd_D65 = Ret d65 -> cie_1931_2_degree = Ret cm -> forall k l q, nth_error data_spectral k = Some l -> nth_error data_XYZ_D65 k = Some q -> forall sp, vspd_table l = Ret sp ->
      exists x y z, vspd_to_xyz dbg fuel sp d65 cm = Ret (Xyz (Fin x) (Fin y) (Fin z)) /\ vnear (2 / 10 ^ 14) (x, y, z) (qvec q)).
    { intros K dbg fuel OK F d65 cm E1 E2 k l q N1 N2 sp E3. destruct (C101_xyz dbg fuel OK F) as (d & c & D & CM & H). rewrite E1 in D. injection D as <-. rewrite E2 in CM. injection CM as <-.
      destruct (nth_Forall2 _ _ _ k l q H N1 N2) as (sp' & [cx cy cz] & S & T & (x & A & A') & (y & B & B') & (z & C & C')). cbn [xyz_x xyz_y xyz_z] in A, B, C. subst. rewrite E3 in S. injection S as <-. exists x, y, z. split; [exact T|]. exact (conj A' (conj B' C')). }
    revert G. generalize (all2_ok _ _ _ patches_check). intro P.
    assert (W : forall ls qs ls0 qs0, Forall2 (fun (x : list (Q * Q)) (y : Q * Q * Q) => In x data_spectral /\ patch_check (2 # 100000000000000) x y = true) ls qs -> length ls0 = length qs0 -> data_spectral = ls0 ++ ls -> data_XYZ_D65 = qs0 ++ qs ->
      (forall (K : XConst) dbg fuel, XConstOk K -> (420 <= fuel)%nat -> forall d65 cm, spd_D65 = Ret d65 -> cie_1931_2_degree = Ret cm -> forall k l q, nth_error data_spectral k = Some l -> nth_error data_XYZ_D65 k = Some q -> forall sp, vspd_table l = Ret sp ->
        exists x y z, vspd_to_xyz dbg fuel sp d65 cm = Ret (Xyz (Fin x) (Fin y) (Fin z)) /\ vnear (2 / 10 ^ 14) (x, y, z) (qvec q)) ->
      Forall2 (fun l q => (In l data_spectral /\ In q data_XYZ_D65) /\ forall (K : XConst) dbg fuel, XConstOk K -> (420 <= fuel)%nat -> forall sp d65 cm, vspd_table l = Ret sp -> spd_D65 = Ret d65 -> cie_1931_2_degree = Ret cm ->
        exists x y z, vspd_to_xyz dbg fuel sp d65 cm = Ret (Xyz (Fin x) (Fin y) (Fin z)) /\ vnear (2 / 10 ^ 14) (x, y, z) (qvec q)) ls qs).
    { intros ls qs ls0 qs0 FF. revert ls0 qs0. induction FF as [|l q ls qs [I _] FF IH]; intros ls0 qs0 LL E1 E2 G; constructor.
      - split; [split; [exact I|rewrite E2; apply in_or_app; right; left; reflexivity]|]. intros K dbg fuel OK F sp d65 cm E3 E4 E5. apply (G K dbg fuel OK F d65 cm E4 E5 (length ls0) l q); [rewrite E1|rewrite E2, LL|exact E3]; rewrite nth_error_app2, Nat.sub_diag by lia; reflexivity.
      - apply (IH (ls0 ++ [l]) (qs0 ++ [q])); [rewrite !app_length, LL; reflexivity|rewrite E1, <- app_assoc; reflexivity|rewrite E2, <- app_assoc; reflexivity|exact G]. }
    intro G. exact (W _ _ [] [] P eq_refl eq_refl eq_refl G). }
  pose proof (f2_comp _ _ _ _ _ (f2_comp _ _ _ _ _ X (all2_ok _ _ _ srgb_lin_check)) (all2_ok _ _ _ chart_check)) as Y.
  refine (f2_impl _ _ _ _ _ Y). intros l c (r & (q & ((I & J) & H) & _ & M) & _ & B). exists q, r. split; [|exact H]. split; [exact I|]. pose proof plain_all as PA. rewrite forallb_forall in PA. split; [exact (PA q J)|]. split; [exact M|exact B].
Qed.

Section E.
Context {K : XConst}.
Lemma srgb_matrix (OK : XConstOk K) : xyz_to_rgb_matrix (cs_white SRGB) SRGB = Ret (FinM (toR (toQ srgb_i))).
Proof. rewrite (same_ok _ _ srgb_same). destruct (nth_Forall2 _ _ _ 0%nat _ _ (refs_described OK) eq_refl eq_refl) as (s & E & D). injection E as <-. exact (fwd65_matrix OK _ _ D eq_refl). Qed.
Lemma code_x x c y : byte_check x c = true -> Rabs (y - Q2R x) <= / 1000000 -> quantize 255 (Fin (enc y)) = c.
Proof.
  intros B H. destruct (byte_ok x c y B H) as [A _]. pose proof (xquant 255 (enc y) ltac:(lia)) as Q. change (IZR 255) with 255 in Q. assert (Z.abs (quantize 255 (Fin (enc y)) - c) <= 0)%Z; [|lia]. apply int_gap. apply Rabs_le_inv in A, Q. apply Rabs_def1; lra.
Qed.
Theorem C102_exact dbg fuel : XConstOk K -> (420 <= fuel)%nat -> omap (swatch dbg fuel) data_spectral = Ret chart.
Proof.
  intros OK F. apply omap_f2. refine (f2_impl _ _ _ _ _ all_patches). intros l c (q & r & (I & PL & M & B) & H).
  destruct (C101_xyz dbg fuel OK F) as (d65 & cm & E1 & E2 & _). destruct (PropTables.C75_colour_checker OK) as (_ & _ & W). destruct (W l I) as (sp & _ & E3 & _).
  destruct (H K dbg fuel OK F sp d65 cm E3 E1 E2) as (x & y & z & E4 & N). unfold swatch. rewrite E3, E1, E2. cbn [obind]. rewrite E4, (srgb_matrix OK). cbn [obind]. apply f_equal.
  change (Xyz (Fin x) (Fin y) (Fin z)) with (FinXyz (x, y, z)). rewrite xyz_to_rgb_fin.
  assert (V : vnear (2 / 10 ^ 16) (vscale (/ 100) (x, y, z)) (vscale (/ 100) (qvec q))). { destruct N as (N1 & N2 & N3). unfold vnear, vscale, qvec, v0, v1, v2 in *. cbn [fst snd] in *. apply Rabs_le_inv in N1, N2, N3. split; [|split]; apply Rabs_le; lra. }
  apply (srgb_near _ _ _ _ M) in V. destruct (mapp _ _) as [[r0 g0] b0]. destruct V as (V1 & V2 & V3). unfold v0, v1, v2, qvec in V1, V2, V3. cbn [fst snd] in V1, V2, V3.
  unfold bytes_check in B. rewrite !andb_true_iff in B. destruct B as [[B1 B2] B3]. unfold cs_encode, SRGB, cs_new_with_specified_matrices. cbn [cs_oetf]. unfold enc_srgb, per_channel, FinRgb, v0, v1, v2. cbn [fst snd rgb_r rgb_g rgb_b]. rewrite !(proj2 srgb_x).
  unfold rgb_to_u8, rgb_to_uint. cbn [rgb_r rgb_g rgb_b]. rewrite (code_x _ _ _ B1), (code_x _ _ _ B2), (code_x _ _ _ B3) by (apply Rabs_le_inv in V1, V2, V3; apply Rabs_le; lra). destruct c; reflexivity.
Qed.
End E.

Section F.
Context (L : libm f64) (PI : powi5_ok 53 1024 (l_powi L)) (PW : powf_ok 53 1024 (l_powf L)) (PV : powf_wide 53 1024 (l_powf L)) (AP : approx_same L).
Notation ops := (b_ops 53 1024 L (b_of_Q 53 1024)).
(* a float entry within 10^-15 of z/n, which is at most 4 *)
Definition entry_check (a : f64) (z : Z) (n : positive) : bool := (PropPixel.good 53 1024 200 a && (PropConv.gap 53 1024 200 n a z * 10 ^ 15 <=? 2 ^ 200 * Zpos n) && (Z.abs z <=? 4 * Zpos n))%Z%bool.
Definition entries_check (m : mat33 f64) (q : imat) : bool :=
  match m, q with Mat33 a b c d e f g h i, IM (Mat33 a' b' c' d' e' f' g' h' i') n => entry_check a a' n && entry_check b b' n && entry_check c c' n && entry_check d d' n && entry_check e e' n && entry_check f f' n && entry_check g g' n && entry_check h h' n && entry_check i i' n end.
Lemma entry_ok a z n : entry_check a z n = true -> is_finite a = true /\ Rabs (B2R a - Q2R (z # n)) <= / 10 ^ 15 /\ Rabs (Q2R (z # n)) <= 4.
Proof.
  unfold entry_check. rewrite !andb_true_iff, !Z.leb_le. intros [[G A] B]. destruct (gap_ok 53 1024 200 n a z ltac:(lia) G) as [F H]. split; [exact F|]. destruct (unit_pos 200 n ltac:(lia)) as (O1 & O2 & E). rewrite E in H.
  apply IZR_le in A, B. rewrite !mult_IZR in A. rewrite mult_IZR in B. rewrite abs_IZR in B. replace (IZR (10 ^ 15)) with (10 ^ 15) in A by (change (10 ^ 15)%Z with 1000000000000000%Z; lra). set (w := IZR (2 ^ 200)) in *. clearbody w. split.
  - apply (Rmult_le_reg_r (w * IZR (Zpos n))); [apply Rmult_lt_0_compat; assumption|]. eapply Rle_trans; [exact H|]. apply (Rmult_le_reg_r (10 ^ 15)); [lra|]. replace (/ 10 ^ 15 * (w * IZR (Zpos n)) * 10 ^ 15) with (w * IZR (Zpos n)) by lra. exact A.
  - unfold Q2R. cbn [Qnum Qden]. rewrite Rabs_mult, (Rabs_pos_eq (/ _)) by (apply Rlt_le, Rinv_0_lt_compat, O2). apply (Rmult_le_reg_r (IZR (Zpos n))); [exact O2|]. replace (Rabs (IZR z) * / IZR (Zpos n) * IZR (Zpos n)) with (Rabs (IZR z)) by (field; lra). exact B.
Qed.
Lemma row6 (a b c x y z : f64) za zb zc n : entry_check a za n = true -> entry_check b zb n = true -> entry_check c zc n = true -> is_finite x = true -> is_finite y = true -> is_finite z = true -> 0 <= B2R x <= 1 -> 0 <= B2R y <= 1 -> 0 <= B2R z <= 1 ->
  is_finite (fdot 53 1024 a b c x y z) = true /\ Rabs (B2R (fdot 53 1024 a b c x y z) - (Q2R (za # n) * B2R x + Q2R (zb # n) * B2R y + Q2R (zc # n) * B2R z)) <= 2 / 10 ^ 14.
Proof.
  intros A B C Fx Fy Fz HX HY HZ. destruct (entry_ok _ _ _ A) as (Fa & Da & Ba). destruct (entry_ok _ _ _ B) as (Fb & Db & Bb). destruct (entry_ok _ _ _ C) as (Fc & Dc & Bc).
  assert (T : forall m q t, 0 <= t <= 1 -> Rabs (m - q) <= / 10 ^ 15 -> Rabs q <= 4 -> Rabs (m * t) <= 4.01 /\ Rabs (m * t - q * t) <= / 10 ^ 15).
  { intros m q t Ht H1 H2. replace (m * t - q * t) with ((m - q) * t) by ring. rewrite !Rabs_mult, (Rabs_pos_eq t) by lra. assert (M : Rabs m <= 4.01) by (apply Rabs_le_inv in H1, H2; apply Rabs_le; lra). split; [apply Rle_trans with (4.01 * 1)|apply Rle_trans with (/ 10 ^ 15 * 1)]; try lra; apply Rmult_le_compat; try apply Rabs_pos; lra. }
  destruct (T _ _ _ HX Da Ba) as [A1 A2]. destruct (T _ _ _ HY Db Bb) as [B1 B2]. destruct (T _ _ _ HZ Dc Bc) as [C1 C2]. assert (AD : adot 53 1024 a b c x y z <= 12.1) by (unfold adot; lra).
  assert (F : is_finite (fdot 53 1024 a b c x y z) = true) by (apply fdot_finite; try assumption; [lia|]; apply Rle_trans with (bpow radix2 4); [change (bpow radix2 4) with 16; lra|apply bpow_le; lia]). split; [exact F|].
  pose proof (fdot_err 53 1024 a b c x y z ltac:(lia) F) as H. assert (U : bpow radix2 (- (53)) = / 9007199254740992) by reflexivity. rewrite U in H. assert (ET : bpow radix2 (2 - 1024 - 53) <= / 10 ^ 16). { apply Rle_trans with (bpow radix2 (-60)); [apply bpow_le; lia|]. change (bpow radix2 (-60)) with (/ 1152921504606846976). lra. }
  unfold edot in H. apply Rabs_le_inv in H, A2, B2, C2. apply Rabs_le. lra.
Qed.
Lemma srgb_fit : match @xyz_to_rgb_matrix _ ops (@cs_white _ (@SRGB _ ops)) (@SRGB _ ops) with Ret m => entries_check m srgb_i | _ => false end = true.
Proof. vm_compute. reflexivity. Qed.
Lemma percent (p : f64) q : is_finite p = true -> 1 <= q <= 99 -> Rabs (B2R p - q) <= 0.0001 -> let x := Bdiv mode_NE p (@rlit _ ops 100.0%Q) in is_finite x = true /\ 0 <= B2R x <= 1 /\ Rabs (B2R x - q / 100) <= Rabs (B2R p - q) / 100 + / 10 ^ 15.
Proof.
  intros F B H x. destruct (isZ_lit 100.0 100) as [F1 V1]; [clear; q2r; lra|lia|]. change (b_of_Q 53 1024 100.0) with (@rlit _ ops 100.0%Q) in F1, V1. change (IZR 100) with 100 in V1. assert (U : u = / 9007199254740992) by reflexivity. pose proof (tiny_le 1024 ltac:(lia)) as [T0 T].
  assert (H' := Rabs_le_inv _ _ H). assert (Y : 0.009 <= B2R p / 100 <= 0.991) by lra.
  assert (TB : bpow radix2 (2 - 1024) <= B2R p / 100 <= 1000) by lra. pose proof (rnd_below 53 1024 ltac:(lia) ltac:(lia) _ TB) as RB.
  destruct (fdiv 53 1024 p (@rlit _ ops 100.0%Q) F ltac:(rewrite V1; lra) ltac:(rewrite V1; exact RB)) as [F2 E2]. fold x in F2, E2. rewrite V1 in E2.
  pose proof (rnd_rel 53 1024 (B2R p / 100) ltac:(lra)) as RR. rewrite <- E2 in RR. unfold RelErr.rel in RR. rewrite U in RR. apply Rabs_le_inv in RR. split; [exact F2|]. split; [lra|].
  assert (E : Rabs (B2R x - B2R p / 100) <= / 10 ^ 15) by (apply Rabs_le; lra). replace (B2R x - q / 100) with ((B2R p - q) / 100 + (B2R x - B2R p / 100)) by lra. eapply Rle_trans; [apply Rabs_triang|]. unfold Rdiv at 1. rewrite Rabs_mult, (Rabs_pos_eq (/ 100)) by lra. lra.
Qed.
Lemma code_f x c (v : f64) : byte_check x c = true -> is_finite v = true -> Rabs (B2R v - Q2R x) <= / 1000000 -> @quantize _ ops 255 (@enc_srgb_t _ ops v) = c.
Proof.
  intros B F H. destruct (byte_ok x c (Q2R x) B ltac:(rewrite Rminus_eq_0, Rabs_R0; lra)) as (A & A1 & X5).
  destruct (srgb_exact 53 1024 ltac:(lia) ltac:(lia) L _ (litd_ok 53 1024 ltac:(lia) ltac:(lia)) PW PV) as [_ NE]. destruct (NE v (Q2R x) (/ 1000000) F X5 ltac:(lra) H) as [G D].
  assert (U : u = / 9007199254740992) by reflexivity. rewrite U in D. pose proof (fquant 53 1024 ltac:(lia) L (b_of_Q 53 1024) 255 _ ltac:(lia) G) as Q. rewrite U in Q. change (IZR 255) with 255 in Q.
  assert (N : Rabs (clampR (B2R (@enc_srgb_t _ ops v)) - clampR (enc (Q2R x))) <= / 50000).
  { destruct D as [D|[[D1 D2]|[D1 D2]]]; [apply clampR_near; eapply Rle_trans; [exact D|lra]|rewrite !clampR_low by assumption; rewrite Rminus_eq_0, Rabs_R0; lra|lra]. }
  assert (Z.abs (@quantize _ ops 255 (@enc_srgb_t _ ops v) - c) <= 0)%Z; [|lia]. apply int_gap. apply Rabs_le_inv in A, Q, N. apply Rabs_def1; lra.
Qed.
Lemma plain_ok q : plain q = true -> (1 <= Q2R (fst (fst q)) <= 99) /\ (1 <= Q2R (snd (fst q)) <= 99) /\ (1 <= Q2R (snd q) <= 99).
Proof. unfold plain. rewrite !andb_true_iff. intros [[[[[A B] C] D] E] G]. apply qle_t in A, B, C, D, E, G. replace (Q2R 1) with 1 in * by (clear; q2r; lra). replace (Q2R 99) with 99 in * by (clear; q2r; lra). lra. Qed.
Local Existing Instance f64_const.
Theorem C102_float dbg fuel : (420 <= fuel)%nat -> omap (@swatch _ ops dbg fuel) data_spectral = Ret chart.
Proof.
  intros F. apply omap_f2. refine (f2_impl _ _ _ _ _ all_patches). intros l c (q & r & (I & PL & M & B) & H).
  destruct (C100_checker L PI dbg fuel (@spd_D65 _ ops) spd_D65 l f64_const_ok AP F ltac:(cbn [In]; tauto) I) as (v & cm & sp & v' & cm' & sp' & p & p' & E1 & E2 & E3 & E4 & E5 & E6 & E7 & E8 & CL).
  destruct (H _ dbg fuel f64_const_ok F sp' v' cm' E6 E4 E5) as (x & y & z & E9 & N). rewrite E9 in E8. injection E8 as <-. unfold swatch. rewrite E3, E1, E2. cbn [obind]. rewrite E7. cbn [obind]. clear E1 E2 E3 E4 E5 E6 E7 E9 H.
  pose proof srgb_fit as SF. destruct (xyz_to_rgb_matrix _ _) as [m| |]; try discriminate SF. cbn [obind]. apply f_equal.
  destruct p as [px py pz]. destruct CL as ((ex & [= <-] & F1 & C1) & (ey & [= <-] & F2 & C2) & (ez & [= <-] & F3 & C3)). cbn [xyz_x xyz_y xyz_z] in F1, F2, F3, C1, C2, C3. destruct (plain_ok q PL) as (P1 & P2 & P3).
  destruct N as (N1 & N2 & N3). unfold qvec, v0, v1, v2 in N1, N2, N3. cbn [fst snd] in N1, N2, N3.
  assert (D1 : Rabs (B2R px - Q2R (fst (fst q))) <= / 400000) by (apply Rabs_le_inv in C1, N1; apply Rabs_le; lra). assert (D2 : Rabs (B2R py - Q2R (snd (fst q))) <= / 400000) by (apply Rabs_le_inv in C2, N2; apply Rabs_le; lra). assert (D3 : Rabs (B2R pz - Q2R (snd q)) <= / 400000) by (apply Rabs_le_inv in C3, N3; apply Rabs_le; lra).
  destruct (percent px _ F1 P1 ltac:(lra)) as (G1 & R1 & X1). destruct (percent py _ F2 P2 ltac:(lra)) as (G2 & R2 & X2). destruct (percent pz _ F3 P3 ltac:(lra)) as (G3 & R3 & X3).
  unfold xyz_to_rgb, xyz_div, xyz_from_scalar. cbn [xyz_x xyz_y xyz_z]. change (@rdiv _ ops) with (@Bdiv 53 1024 _ _ mode_NE). set (fx := Bdiv mode_NE px _) in *. set (fy := Bdiv mode_NE py _) in *. set (fz := Bdiv mode_NE pz _) in *.
  assert (V : vnear (/ 30000000) (B2R fx, B2R fy, B2R fz) (vscale (/ 100) (qvec q))). { unfold vnear, vscale, qvec, v0, v1, v2. cbn [fst snd]. split; [|split]; rewrite Rmult_comm; (eapply Rle_trans; [eassumption|]); lra. }
  apply (srgb_near _ _ _ _ M) in V. clearbody fx fy fz. destruct m as [m00 m01 m02 m10 m11 m12 m20 m21 m22]. unfold entries_check, srgb_i in SF. rewrite !andb_true_iff in SF. destruct SF as [[[[[[[[S1 S2] S3] S4] S5] S6] S7] S8] S9].
  destruct (row6 _ _ _ _ _ _ _ _ _ _ S1 S2 S3 G1 G2 G3 R1 R2 R3) as (T1 & T2). destruct (row6 _ _ _ _ _ _ _ _ _ _ S4 S5 S6 G1 G2 G3 R1 R2 R3) as (T3 & T4). destruct (row6 _ _ _ _ _ _ _ _ _ _ S7 S8 S9 G1 G2 G3 R1 R2 R3) as (T5 & T6).
  unfold vnear, srgb_i, toQ, toR, mapp, qvec, v0, v1, v2 in V. cbn [fst snd] in V. destruct V as (V1 & V2 & V3).
  unfold bytes_check in B. rewrite !andb_true_iff in B. destruct B as [[B1 B2] B3]. unfold mat_mul_xyz. cbn [xyz_x xyz_y xyz_z]. unfold cs_encode, SRGB, cs_new_with_specified_matrices. cbn [cs_oetf]. unfold enc_srgb, per_channel. cbn [rgb_r rgb_g rgb_b].
  unfold rgb_to_u8, rgb_to_uint. cbn [rgb_r rgb_g rgb_b].
  assert (W : forall s t w e, Rabs (s - t) <= 2 / 10 ^ 14 -> Rabs (t - w) <= 6 * / 30000000 + / 10 ^ 15 -> e = / 1000000 -> Rabs (s - w) <= e). { intros s t w e A1 A2 ->. apply Rabs_le_inv in A1, A2. apply Rabs_le. lra. }
  pose proof (W _ _ _ _ T2 V1 eq_refl) as W1. pose proof (W _ _ _ _ T4 V2 eq_refl) as W2. pose proof (W _ _ _ _ T6 V3 eq_refl) as W3.
  destruct c as [cr cg cb]. cbn [rgb_r rgb_g rgb_b] in B1, B2, B3. f_equal; eapply code_f; eassumption.
Qed.
(* ISO colour checker: dark skin comes out as 115 82 68; cyan is outside sRGB, its red channel stops at 0 *)
Lemma omap_nth {A B} (f : A -> outcome B) l : forall m k x y, omap f l = Ret m -> nth_error l k = Some x -> nth_error m k = Some y -> f x = Ret y.
Proof.
  induction l as [|a l IH]; intros m k x y E X Y; [destruct k; discriminate|]. cbn [omap] in E. destruct (f a) as [b| |] eqn:Fa; try discriminate. cbn [obind] in E. destruct (omap f l) as [m'| |] eqn:M; try discriminate. cbn [obind] in E. injection E as <-.
  destruct k; cbn [nth_error] in X, Y; [injection X as <-; injection Y as <-; exact Fa|]. eapply IH; [reflexivity|eassumption|eassumption].
Qed.
Example C102_dark_skin_example dbg : @swatch _ ops dbg 420 (nth 0 data_spectral []) = Ret (Rgb 115 82 68)%Z.
Proof. refine (omap_nth _ _ _ 0 _ _ (C102_float dbg 420 ltac:(lia)) _ _); reflexivity. Qed.
Example C102_cyan_example dbg : exists g b, @swatch _ ops dbg 420 (nth 17 data_spectral []) = Ret (Rgb 0 g b)%Z /\ (0 < g < 255)%Z /\ (0 < b < 255)%Z.
Proof. eexists. eexists. split; [refine (omap_nth _ _ _ 17 _ _ (C102_float dbg 420 ltac:(lia)) _ _); reflexivity|lia]. Qed.
End F.
(* dark skin: X is 11.147246585760028, and not 11.147246585761 *)
Example C101_example {K : XConst} dbg : XConstOk K -> exists sp d65 cm c x, vspd_table (nth 0 data_spectral []) = Ret sp /\ spd_D65 = Ret d65 /\ cie_1931_2_degree = Ret cm /\ vspd_to_xyz dbg 420 sp d65 cm = Ret c /\ xyz_x c = Fin x /\ Rabs (x - 11.147246585760028) <= 3 / 10 ^ 14 /\ ~ Rabs (x - 11.147246585761) <= 3 / 10 ^ 14.
Proof.
  intro OK. destruct (C101_xyz dbg 420 OK ltac:(lia)) as (d65 & cm & E1 & E2 & H). destruct (nth_Forall2 _ _ _ 0%nat _ _ H eq_refl eq_refl) as (sp & c & E3 & E4 & (x & X & N) & _). exists sp, d65, cm, c, x.
  split; [exact E3|]. split; [exact E1|]. split; [exact E2|]. split; [exact E4|]. split; [exact X|]. cbn [fst snd] in N. clear - N. replace (Q2R 11.147246585760028025902102) with 11.147246585760028025902102 in N by reflexivity. split; [apply Rabs_le_inv in N; apply Rabs_le; lra|]. intro M. apply Rabs_le_inv in N, M. lra.
Qed.
