(* C101: the reference colours of the colour checker against what the library computes *)
From Coq Require Import Reals ZArith QArith Qreals Lra Lia Bool List.
From Flocq Require Import Core.
From Verif Require Import Outcome RealOps MathModel ColorModel AdaptModel SpaceModel TransformModel InterpModel VspdModel UpliftModel XReal SpecLin VspdProofs PropShape AlignProofs PropAlign PropTables WhiteProofs PropWhite RefProofs MatProofs AdaptProofs SpaceProofs PropSpace PropTransform ConvMat PropConv.
From Verif Require Import DataIllum DataCmf DataChecker DataReference.
Import ListNotations.
Open Scope R_scope.

(* num/den against a decimal, over the integers *)
Definition close_frac (tol q : Q) (num den : Z) : bool := ((0 <? den)%Z && (Z.abs (num * Zpos (Qden q) - Qnum q * den) * Zpos (Qden tol) <=? Qnum tol * (den * Zpos (Qden q)))%Z)%bool.
Lemma close_frac_ok tol q num den : close_frac tol q num den = true -> Rabs (IZR num / IZR den - Q2R q) <= Q2R tol.
Proof.
  intro H. apply andb_true_iff in H. destruct H as [P H]. apply Z.ltb_lt in P. apply Z.leb_le, IZR_le in H. rewrite !mult_IZR, abs_IZR, minus_IZR, !mult_IZR in H. apply IZR_lt in P.
  assert (P1 : 0 < IZR (Zpos (Qden q))) by (apply IZR_lt; reflexivity). assert (P2 : 0 < IZR (Zpos (Qden tol))) by (apply IZR_lt; reflexivity).
  unfold Q2R. set (n := IZR num) in *. set (d := IZR den) in *. set (a := IZR (Qnum q)) in *. set (b := IZR (Z.pos (Qden q))) in *. set (e := IZR (Qnum tol)) in *. set (f := IZR (Z.pos (Qden tol))) in *. clearbody n d a b e f.
  assert (E : n / d - a * / b = (n * b - a * d) / (d * b)) by (field; lra). rewrite E. unfold Rdiv. assert (Pdb : 0 < d * b) by (apply Rmult_lt_0_compat; assumption). rewrite Rabs_mult, (Rabs_pos_eq (/ (d * b))) by (left; apply Rinv_0_lt_compat, Pdb).
  apply Rmult_le_reg_r with (d * b); [exact Pdb|]. rewrite Rmult_assoc, Rinv_l, Rmult_1_r by lra. apply Rmult_le_reg_r with f; [exact P2|]. apply Rle_trans with (1 := H). right. field. lra.
Qed.

Definition nearc (t : R) (q : QArith_base.Q) (x : xr) : Prop := exists r, x = Fin r /\ Rabs (r - Q2R q) <= t.
Definition near_xyz (t : R) (q : QArith_base.Q * QArith_base.Q * QArith_base.Q) (c : xyz xr) : Prop := nearc t (fst (fst q)) (xyz_x c) /\ nearc t (snd (fst q)) (xyz_y c) /\ nearc t (snd q) (xyz_z c).
Definition near_rgb (t : R) (q : QArith_base.Q * QArith_base.Q * QArith_base.Q) (c : rgbf xr) : Prop := nearc t (fst (fst q)) (rgb_r c) /\ nearc t (snd (fst q)) (rgb_g c) /\ nearc t (snd q) (rgb_b c).

Definition foldx : list Z := Eval vm_compute in zfold 10000 data_D65 data_x_bar.
Definition foldy : list Z := Eval vm_compute in zfold 10000 data_D65 data_y_bar.
Definition foldz : list Z := Eval vm_compute in zfold 10000 data_D65 data_z_bar.
Definition norm65 : Z := Eval vm_compute in znorm 10000 data_D65.
Lemma foldx_eq : zfold 10000 data_D65 data_x_bar = foldx. Proof. vm_compute. reflexivity. Qed.
Lemma foldy_eq : zfold 10000 data_D65 data_y_bar = foldy. Proof. vm_compute. reflexivity. Qed.
Lemma foldz_eq : zfold 10000 data_D65 data_z_bar = foldz. Proof. vm_compute. reflexivity. Qed.
Lemma norm65_eq : znorm 10000 data_D65 = norm65. Proof. vm_compute. reflexivity. Qed.
Definition million : positive := 1000000.
Definition patch_ints (l : list (Q * Q)) : list Z := map (scaled million) (map snd l).
Definition patch_check (tol : Q) (l : list (Q * Q)) (q : Q * Q * Q) : bool :=
  let z := patch_ints l in let den := (60 * 1000000 * norm65)%Z in
  (exactly million (map snd l) && close_frac tol (fst (fst q)) (WhiteProofs.zdot foldx z) den && close_frac tol (snd (fst q)) (WhiteProofs.zdot foldy z) den && close_frac tol (snd q) (WhiteProofs.zdot foldz z) den)%bool.
Fixpoint all2 {A B} (f : A -> B -> bool) (l : list A) (m : list B) : bool := match l, m with [], [] => true | x :: l, y :: m => (f x y && all2 f l m)%bool | _, _ => false end.
Lemma all2_in {A B} (f : A -> B -> bool) l0 l : (forall x, In x l -> In x l0) -> forall m, all2 f l m = true -> Forall2 (fun x y => In x l0 /\ f x y = true) l m.
Proof.
  induction l as [|x l IH]; intros S [|y m] H; try discriminate; [constructor|]. cbn [all2] in H. apply andb_true_iff in H. destruct H as [H H']. constructor; [split; [apply S; left; reflexivity|exact H]|].
  apply IH; [|exact H']. intros z Hz. apply S. right. exact Hz.
Qed.
Lemma all2_ok {A B} (f : A -> B -> bool) l m : all2 f l m = true -> Forall2 (fun x y => In x l /\ f x y = true) l m.
Proof. apply all2_in. intros x H. exact H. Qed.
Lemma f2_impl {A B} (P P' : A -> B -> Prop) l m : (forall x y, P x y -> P' x y) -> Forall2 P l m -> Forall2 P' l m.
Proof. intros H F. induction F; constructor; [apply H|]; assumption. Qed.
Lemma patches_check : all2 (patch_check (2 # 100000000000000)) data_spectral data_XYZ_D65 = true.
Proof. vm_compute. reflexivity. Qed.

(* ---- linear RGB: the references as rows of an integer matrix ---- *)
Definition qalexa : qspace := (QS (Mat33 1.789066 (-0.482534) (-0.200076) (-0.639849) 1.396400 0.194432 (-0.041532) 0.082335 0.878868) (Mat33 0.638008 0.214704 0.097744 0.291954 0.823841 (-0.115795) 0.002798 (-0.067034) 1.153294) D65q)%Q.
Definition fwd65 (q : qspace) : mat33 Q := qmul (q_fwd q) (qcat D65q (q_white q)).
Definition row_check (tol : Q) (a b c : Z) (n : positive) (p : Q * Q * Q) (r : Q) : bool :=
  let d := Qden (fst (fst p)) in (Pos.eqb (Qden (snd (fst p))) d && Pos.eqb (Qden (snd p)) d && close_frac tol r (ConvMat.zdot a b c (Qnum (fst (fst p))) (Qnum (snd (fst p))) (Qnum (snd p))) (Zpos (n * d)))%bool.
Definition mat_check (tol : Q) (i : imat) (p r : Q * Q * Q) : bool :=
  match i with IM (Mat33 a b c d e f g h j) n => (row_check tol a b c n p (fst (fst r)) && row_check tol d e f n p (snd (fst r)) && row_check tol g h j n p (snd r))%bool end.
Definition qvec (p : Q * Q * Q) : vec := (Q2R (fst (fst p)), Q2R (snd (fst p)), Q2R (snd p)).
Lemma row_check_ok tol a b c n p r : row_check tol a b c n p r = true -> Rabs (Q2R (a # n) * Q2R (fst (fst p)) + Q2R (b # n) * Q2R (snd (fst p)) + Q2R (c # n) * Q2R (snd p) - Q2R r) <= Q2R tol.
Proof.
  unfold row_check. cbv zeta. rewrite !andb_true_iff. intros [[D1 D2] H]. apply Pos.eqb_eq in D1, D2. apply close_frac_ok in H. destruct p as [[[x d] [y d1]] [z d2]]. cbn [fst snd Qnum Qden] in *. subst d1 d2.
  rewrite <- (zdot_ok a b c x y z n d). exact H.
Qed.
Lemma mat_check_ok tol i p r : mat_check tol i p r = true -> exists x y z, mapp (toR (toQ i)) (qvec p) = (x, y, z) /\ Rabs (x - Q2R (fst (fst r))) <= Q2R tol /\ Rabs (y - Q2R (snd (fst r))) <= Q2R tol /\ Rabs (z - Q2R (snd r)) <= Q2R tol.
Proof.
  destruct i as [[a b c d e f g h j] n]. cbn [mat_check]. rewrite !andb_true_iff. intros [[H1 H2] H3]. apply row_check_ok in H1, H2, H3. eexists _, _, _. split; [reflexivity|]. exact (conj H1 (conj H2 H3)).
Qed.
Definition over100 (i : imat) : imat := match i with IM m n => IM m (100 * n) end.
Lemma over100_ok i v : mapp (toR (toQ (over100 i))) v = mapp (toR (toQ i)) (vscale (/ 100) v).
Proof.
  destruct i as [[a b c d e f g h j] n], v as [[x y] z]. unfold over100, toQ, toR, mapp, vscale, v0, v1, v2. cbn [fst snd].
  assert (E : forall k, Q2R (k # (100 * n)) = Q2R (k # n) * / 100). { intro k. unfold Q2R. cbn [Qnum Qden]. rewrite Pos2Z.inj_mul, mult_IZR. field. apply IZR_neq. discriminate. }
  rewrite !E. f_equal; [f_equal|]; ring.
Qed.
Definition qrefs : list qspace := Eval unfold qspaces in (match qspaces with [s; _; b7; b2; p3; _; ac; cg; ad] => [s; b7; b2; p3; ac; cg; ad; qalexa] | _ => [] end).
Definition linears : list (list (Q * Q * Q)) := [data_SRGB_LINEAR; data_ITUR_BT709_LINEAR; data_ITUR_BT2020_LINEAR; data_DCI_P3_LINEAR; data_ACES_LINEAR; data_ACES_CG_LINEAR; data_ADOBE_RGB_1998_LINEAR; data_ALEXA_WIDE_GAMUT_LINEAR].
Definition fwd65_i : list imat := Eval vm_compute in map (fun q => over_common (fwd65 q)) qrefs.
Lemma fwd65_same : Forall2 (fun i q => same_mat i (fwd65 q) = true) fwd65_i qrefs.
Proof. unfold fwd65_i, qrefs. repeat apply Forall2_cons; [..|apply Forall2_nil]; vm_compute; reflexivity. Qed.
Lemma linears_check : Forall2 (fun i t => all2 (mat_check (1 # 1000000000000000) (over100 i)) data_XYZ_D65 t = true) fwd65_i linears.
Proof. unfold fwd65_i, linears. repeat apply Forall2_cons; [..|apply Forall2_nil]; vm_compute; reflexivity. Qed.

Section E.
Context {K : XConst}.
Theorem C101_xyz dbg fuel : XConstOk K -> (420 <= fuel)%nat -> exists d65 cm, spd_D65 = Ret d65 /\ cie_1931_2_degree = Ret cm /\
  Forall2 (fun l q => exists sp c, vspd_table l = Ret sp /\ vspd_to_xyz dbg fuel sp d65 cm = Ret c /\ near_xyz (2 / 10 ^ 14) q c) data_spectral data_XYZ_D65.
Proof.
  intros OK F. destruct (C75_illuminants_and_cmf OK) as (_ & _ & _ & W65 & _). pose proof W65 as (v65 & _ & E65 & _).
  destruct (cmf_source OK data_x_bar ltac:(cbn; tauto)) as (vx & Ex & _). destruct (cmf_source OK data_y_bar ltac:(cbn; tauto)) as (vy & Ey & _). destruct (cmf_source OK data_z_bar ltac:(cbn; tauto)) as (vz & Ez & _).
  assert (Ec : cie_1931_2_degree = Ret (Cmf vx vy vz)) by (unfold cie_1931_2_degree; rewrite Ex, Ey, Ez; reflexivity).
  exists v65, (Cmf vx vy vz). split; [exact E65|]. split; [exact Ec|]. destruct (C75_colour_checker OK) as (_ & _ & W).
  refine (f2_impl _ _ _ _ _ (all2_ok _ _ _ patches_check)).
  intros l q [I C]. destruct (W l I) as (sp & vs & Es & _ & _ & _ & Lv & _ & _ & Vs & Vv). exists sp. unfold patch_check in C. cbv zeta in C. rewrite !andb_true_iff in C. destruct C as [[[C0 C1] C2] C3].
  assert (EV : vs = map (fun z => IZR z / IZR 1000000) (patch_ints l)). { rewrite Vv. unfold vals, patch_ints. rewrite <- (map_map snd Q2R), (exactly_eq _ _ C0), !map_map. reflexivity. }
  assert (NZ : znorm 10000 data_D65 <> 0%Z) by (rewrite norm65_eq; discriminate).
  pose proof (xyz_frac OK dbg fuel 10000 data_D65 780 97 v65 _ vs _ (IZR 1000000) F eq_refl W65 ltac:(lra) ltac:(lia) E65 Ec NZ Lv ltac:(lra) EV) as X. cbv beta zeta in X. rewrite foldx_eq, foldy_eq, foldz_eq, norm65_eq, <- !mult_IZR in X.
  eexists. split; [exact Es|]. split; [rewrite Vs; exact X|]. apply close_frac_ok in C1, C2, C3.
  assert (T : Q2R (2 # 100000000000000) = 2 / 10 ^ 14) by (clear; unfold Q2R; cbn [Qnum Qden]; lra). rewrite T in *. exact (conj (ex_intro _ _ (conj eq_refl C1)) (conj (ex_intro _ _ (conj eq_refl C2)) (ex_intro _ _ (conj eq_refl C3)))).
Qed.

(* the models of the workout, in the order of the tables *)
Definition ref_spaces : list (outcome (color_space xr)) := [Ret SRGB; ITUR_BT709; ITUR_BT2020; DCI_P3; Ret ACES; ACES_CG; Ret ADOBE_RGB_1998; Ret ALEXA_WIDE_GAMUT].
Definition ref_xyz (p : QArith_base.Q * QArith_base.Q * QArith_base.Q) : xyz xr := Xyz (rlitd (fst (fst p))) (rlitd (snd (fst p))) (rlitd (snd p)).
Definition ref_rgb (p : QArith_base.Q * QArith_base.Q * QArith_base.Q) : rgbf xr := Rgb (rlitd (fst (fst p))) (rlitd (snd (fst p))) (rlitd (snd p)).
Lemma ref_xyz_fin p : ref_xyz p = FinXyz (qvec p). Proof. reflexivity. Qed.
Lemma ref_rgb_fin p : ref_rgb p = FinRgb (qvec p). Proof. reflexivity. Qed.
Lemma refs_described (OK : XConstOk K) : Forall2 (fun q o => exists s, o = Ret s /\ describes q s) qrefs ref_spaces.
Proof.
  pose proof (all_described (KO := OK)) as A. unfold qspaces, spaces in A.
  repeat match goal with H : Forall2 _ (_ :: _) _ |- _ => inversion H; clear H; subst end.
  unfold qrefs, ref_spaces. repeat (apply Forall2_cons; [try eassumption|]); [|apply Forall2_nil].
  exists ALEXA_WIDE_GAMUT. split; [reflexivity|]. unfold describes, ALEXA_WIDE_GAMUT, cs_new_with_specified_matrices. cbn [xf_xyz_to_rgb xf_rgb_to_xyz cs_white q_fwd q_bwd q_white qalexa]. unfold FinM, FinXyy, qwhite, D65q, lxy. cbn [toR fst snd]. xs. split; [|split]; f_equal; apply (f_equal Fin); q2r; lra.
Qed.
Lemma fwd65_matrix (OK : XConstOk K) q s : describes q s -> fit_white (q_white q) = true -> xyz_to_rgb_matrix (cs_white SRGB) s = Ret (FinM (toR (fwd65 q))).
Proof.
  intros (F & _ & W) H. destruct (qcat_ok D65q _ eq_refl H) as (C & U & V). assert (SW : cs_white SRGB = FinXyy (qwhite D65q)). { destruct (nth_Forall2 _ _ _ 0%nat _ _ (refs_described OK) eq_refl eq_refl) as (s0 & E0 & _ & _ & E). injection E0 as <-. exact E. }
  unfold xyz_to_rgb_matrix. rewrite SW, W, (cat02_white _ _ U V). cbn [obind]. rewrite F, mat_mul_fin. unfold fwd65. rewrite qmul_ok, C. reflexivity.
Qed.
Lemma refs_fit : Forall (fun q => fit_white (q_white q) = true) qrefs.
Proof. repeat constructor. Qed.
Lemma tol15 : Q2R (1 # 1000000000000000) = 1 / 10 ^ 15. Proof. clear. unfold Q2R. cbn [Qnum Qden]. lra. Qed.
Lemma near_ok i p r tol : Q2R tol = 1 / 10 ^ 15 -> mat_check tol i p r = true -> near_rgb (1 / 10 ^ 15) r (FinRgb (mapp (toR (toQ i)) (qvec p))).
Proof.
  intros T H. apply mat_check_ok in H. destruct H as (x & y & z & E & A & B & C). rewrite E, T in *. exact (conj (ex_intro _ _ (conj eq_refl A)) (conj (ex_intro _ _ (conj eq_refl B)) (ex_intro _ _ (conj eq_refl C)))).
Qed.
Lemma f2_in {A B} (P : A -> B -> Prop) l m y : Forall2 P l m -> In y m -> exists x, In x l /\ P x y.
Proof. induction 1 as [|a b l m H F IH]; [intros []|]. intros [<-|I]; [exists a; split; [left; reflexivity|exact H]|]. destruct (IH I) as (x & X & E). exists x. split; [right; exact X|exact E]. Qed.
Theorem C101_linear : XConstOk K -> Forall2 (fun o t => exists s m, o = Ret s /\ xyz_to_rgb_matrix (cs_white SRGB) s = Ret m /\ Forall2 (fun p r => near_rgb (1 / 10 ^ 15) r (xyz_to_rgb m (ref_xyz p))) data_XYZ_D65 t) ref_spaces linears.
Proof.
  intro OK. pose proof (refs_described OK) as D. pose proof refs_fit as W. pose proof fwd65_same as S. pose proof linears_check as C.
  revert D W S C. generalize qrefs, ref_spaces, fwd65_i, linears. intros qs os is ts D. revert is ts. induction D as [|q o qs os (s & E & D) _ IH]; intros is ts W S C.
  - inversion S; subst. inversion C; subst. constructor.
  - inversion W; subst. inversion S; subst. inversion C; subst. constructor; [|eapply IH; eassumption].
    exists s. eexists. split; [reflexivity|]. split; [apply (fwd65_matrix OK q s D); assumption|].
    match goal with H : all2 _ _ _ = true |- _ => refine (f2_impl _ _ _ _ _ (all2_ok _ _ _ H)) end.
    intros p r [_ N]. rewrite ref_xyz_fin, xyz_to_rgb_fin. match goal with H : same_mat _ _ = true |- _ => rewrite <- (same_ok _ _ H), <- over100_ok end. apply (near_ok _ _ _ _ tol15 N).
Qed.
Lemma aces_check : all2 (mat_check (1 # 1000000000000000) (ipair 0 6)) data_SRGB_LINEAR data_ACES_FROM_SRGB = true.
Proof. vm_compute. reflexivity. Qed.
Theorem C101_aces : XConstOk K -> exists m, rgb_to_rgb_matrix SRGB ACES = Ret m /\ Forall2 (fun p r => near_rgb (1 / 10 ^ 15) r (mat_mul_rgb m (ref_rgb p))) data_SRGB_LINEAR data_ACES_FROM_SRGB.
Proof.
  intro OK. pose proof (all_described (KO := OK)) as A. destruct (nth_error qspaces 0) as [a|] eqn:EA; [|discriminate]. destruct (nth_error qspaces 6) as [b|] eqn:EB; [|discriminate].
  destruct (nth_Forall2 _ _ _ 0%nat a (Ret SRGB) A EA eq_refl) as (s & [= <-] & DA). destruct (nth_Forall2 _ _ _ 6%nat b (Ret ACES) A EB eq_refl) as (s & [= <-] & DB).
  eexists. split; [apply (pair_exact a b); try assumption; [injection EA as <-|injection EB as <-]; reflexivity|].
  refine (f2_impl _ _ _ _ _ (all2_ok _ _ _ aces_check)). intros p r [_ N]. rewrite ref_rgb_fin, mat_mul_rgb_fin, <- (ipair_ok 0 6 a b EA EB). apply (near_ok _ _ _ _ tol15 N).
Qed.
End E.
