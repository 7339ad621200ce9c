(* The conversion matrices between the built-in spaces as rational numbers, and how far the floating-point ones are from them *)
From Coq Require Import Reals ZArith QArith Qreals Qround Lra Lia Bool List.
From Flocq Require Import Core BinarySingleNaN.
From Verif Require Import Outcome RealOps MathModel ColorModel AdaptModel SpaceModel TransformModel XReal SpecLin FloatInst MatProofs AdaptProofs SpaceProofs PropSpace PropTransform PropGamut PropLum PropPixel.
Import ListNotations.
Open Scope R_scope.

Definition toR (m : mat33 Q) : RM :=
  match m with Mat33 a b c d e f g h i => Mat33 (Q2R a) (Q2R b) (Q2R c) (Q2R d) (Q2R e) (Q2R f) (Q2R g) (Q2R h) (Q2R i) end.
Definition qdot (a b c x y z : Q) : Q := Qred (a * x + b * y + c * z).
Definition qmul (p q : mat33 Q) : mat33 Q :=
  match p, q with
  | Mat33 a b c d e f g h i, Mat33 a' b' c' d' e' f' g' h' i' =>
      Mat33 (qdot a b c a' d' g') (qdot a b c b' e' h') (qdot a b c c' f' i')
            (qdot d e f a' d' g') (qdot d e f b' e' h') (qdot d e f c' f' i')
            (qdot g h i a' d' g') (qdot g h i b' e' h') (qdot g h i c' f' i')
  end.
Definition qdet (p : mat33 Q) : Q :=
  match p with Mat33 a b c d e f g h i => Qred (a * e * i + b * f * g + c * d * h - c * e * g - b * d * i - a * f * h) end.
Definition qinv (p : mat33 Q) : mat33 Q :=
  let k := Qred (/ qdet p) in
  match p with
  | Mat33 a b c d e f g h i =>
      Mat33 (Qred (k * (e * i - f * h))) (Qred (k * (c * h - b * i))) (Qred (k * (b * f - c * e)))
            (Qred (k * (f * g - d * i))) (Qred (k * (a * i - c * g))) (Qred (k * (c * d - a * f)))
            (Qred (k * (d * h - e * g))) (Qred (k * (b * g - a * h))) (Qred (k * (a * e - b * d)))
  end.
Lemma q2r_red q : Q2R (Qred q) = Q2R q.
Proof. apply Qeq_eqR, Qred_correct. Qed.
Lemma qdot_ok a b c x y z : Q2R (qdot a b c x y z) = Q2R a * Q2R x + Q2R b * Q2R y + Q2R c * Q2R z.
Proof. unfold qdot. rewrite q2r_red, !Q2R_plus, !Q2R_mult. reflexivity. Qed.
Lemma qmul_ok p q : toR (qmul p q) = mmul (toR p) (toR q).
Proof. destruct p, q. cbn [qmul toR mmul]. rewrite !qdot_ok. reflexivity. Qed.
Lemma qdet_ok p : Q2R (qdet p) = mdet (toR p).
Proof. destruct p. cbn [qdet toR mdet]. rewrite q2r_red, !Q2R_minus, !Q2R_plus, !Q2R_mult. reflexivity. Qed.
Lemma qinv_ok p : ~ (qdet p == 0)%Q -> toR (qinv p) = minv (toR p).
Proof.
  intro H. assert (K : Q2R (Qred (/ qdet p)) = / mdet (toR p)) by (rewrite q2r_red, Q2R_inv by exact H; rewrite qdet_ok; reflexivity).
  unfold minv. rewrite <- K. unfold qinv. set (k := Qred (/ qdet p)). clearbody k. destruct p. cbn [toR madj mscale]. rewrite !q2r_red, !Q2R_mult, !Q2R_minus, !Q2R_mult. reflexivity.
Qed.

(* ---- adaptation between whites ---- *)
Definition qwhite (w : Q * Q) : vec := (Q2R (fst w), Q2R (snd w), 1).
Definition qcat02 : mat33 Q := (Mat33 0.7328 0.4296 (-0.1624) (-0.7036) 1.6975 0.0061 0.0030 0.0136 0.9834)%Q.
Lemma qcat02_ok : toR qcat02 = cat02_mat.
Proof. reflexivity. Qed.
Definition qcone (w : Q * Q) : Q * Q * Q :=
  let x := Qred (fst w / snd w) in let z := Qred ((1 - fst w - snd w) / snd w) in
  match qcat02 with Mat33 a b c d e f g h i => (qdot a b c x 1 z, qdot d e f x 1 z, qdot g h i x 1 z) end.
Definition qratio (a b : Q) : Q := Qred (b / a).
Definition qcat (a b : Q * Q) : mat33 Q :=
  let '(a0, a1, a2) := qcone a in let '(b0, b1, b2) := qcone b in
  qmul (qmul (qinv qcat02) (Mat33 (qratio a0 b0) 0 0 0 (qratio a1 b1) 0 0 0 (qratio a2 b2))%Q) qcat02.
Definition fit_white (w : Q * Q) : bool :=
  let '(a0, a1, a2) := qcone w in (negb (Qeq_bool (snd w) 0) && negb (Qeq_bool a0 0) && negb (Qeq_bool a1 0) && negb (Qeq_bool a2 0))%bool.
Lemma qneq q : negb (Qeq_bool q 0) = true -> ~ (q == 0)%Q.
Proof. intros H E. apply Qeq_eq_bool in E. rewrite E in H. discriminate. Qed.
Lemma q2r_neq q : ~ (q == 0)%Q -> Q2R q <> 0.
Proof. intros H E. apply H. apply eqR_Qeq. rewrite E. unfold Q2R. cbn. lra. Qed.
Lemma q2r_1 : Q2R 1 = 1. Proof. unfold Q2R. cbn. lra. Qed.
Lemma q2r_0 : Q2R 0 = 0. Proof. unfold Q2R. cbn. lra. Qed.
Lemma qcone_ok w : ~ (snd w == 0)%Q -> let '(a0, a1, a2) := qcone w in mapp cat02_mat (white1 (qwhite w)) = (Q2R a0, Q2R a1, Q2R a2).
Proof.
  intro H. unfold qcone, qwhite, white1, v0, v1. cbn [fst snd qcat02]. rewrite <- qcat02_ok. cbn [toR qcat02 mapp].
  rewrite !qdot_ok, !q2r_red, !Q2R_div, !Q2R_minus, !q2r_1 by exact H. reflexivity.
Qed.
Lemma qratio_ok a b : ~ (a == 0)%Q -> Q2R (qratio a b) = Q2R b / Q2R a.
Proof. intro H. unfold qratio. rewrite q2r_red, Q2R_div by exact H. reflexivity. Qed.
Lemma qcat_ok a b : fit_white a = true -> fit_white b = true -> toR (qcat a b) = cat (qwhite a) (qwhite b) /\ usable' (qwhite a) /\ v1 (qwhite b) <> 0.
Proof.
  unfold fit_white. intros HA HB. destruct (qcone a) as [[a0 a1] a2] eqn:CA. destruct (qcone b) as [[b0 b1] b2] eqn:CB. rewrite !andb_true_iff in HA, HB. destruct HA as [[[A A0] A1] A2]. destruct HB as [[[B _] _] _].
  apply qneq in A, A0, A1, A2, B. pose proof (qcone_ok a A) as KA. pose proof (qcone_ok b B) as KB. rewrite CA in KA. rewrite CB in KB.
  split; [|split].
  - unfold qcat. rewrite CA, CB, !qmul_ok, qinv_ok by (vm_compute; discriminate). rewrite qcat02_ok. unfold cat, adapt. f_equal. f_equal.
    assert (MS : forall k v, mapp cat02_mat (vscale k v) = vscale k (mapp cat02_mat v)) by (intros; apply mapp_scale). rewrite !MS, KA, KB. cbn [toR vscale v0 v1 v2 qwhite fst snd]. rewrite q2r_0, !qratio_ok by assumption.
    apply q2r_neq in A0, A1, A2. unfold mdiag, v0, v1, v2, qwhite. cbn [fst snd]. f_equal; field; assumption.
  - unfold usable'. rewrite KA. apply q2r_neq in A, A0, A1, A2. unfold qwhite, nonzero3, v0, v1, v2. cbn [fst snd]. repeat split; try assumption. lra.
  - apply q2r_neq in B. exact B.
Qed.

(* ---- the built-in spaces in exact arithmetic ---- *)
Record qspace := QS { q_fwd : mat33 Q; q_bwd : mat33 Q; q_white : Q * Q }.
Definition describes (q : qspace) (s : color_space xr) : Prop := xf_xyz_to_rgb s = FinM (toR (q_fwd q)) /\ xf_rgb_to_xyz s = FinM (toR (q_bwd q)) /\ cs_white s = FinXyy (qwhite (q_white q)).
Definition qbuilt (r g b w : Q * Q) (a b' c : Q) : qspace :=
  let z p := (1 - fst p - snd p)%Q in
  let m := Mat33 (Qred (a * fst r)) (Qred (b' * fst g)) (Qred (c * fst b)) (Qred (a * snd r)) (Qred (b' * snd g)) (Qred (c * snd b)) (Qred (a * z r)) (Qred (b' * z g)) (Qred (c * z b)) in
  QS (qinv m) m w.
Definition D65q : Q * Q := (0.3127, 0.3290)%Q.
Definition qspaces : list qspace :=
  [QS (Mat33 3.2406 (-1.5372) (-0.4986) (-0.9689) 1.8758 0.0415 0.0557 (-0.2040) 1.0570) (Mat33 0.4124 0.3576 0.1805 0.2126 0.7152 0.0722 0.0193 0.1192 0.9505) D65q;
   qbuilt (0.64, 0.33) (0.3, 0.6) (0.15, 0.06) D65q (158360 # 245763) (878810 # 737289) (126730 # 105327);
   qbuilt (0.64, 0.33) (0.3, 0.6) (0.15, 0.06) D65q (158360 # 245763) (878810 # 737289) (126730 # 105327);
   qbuilt (0.708, 0.292) (0.17, 0.797) (0.131, 0.046) D65q (17917100 # 19915451) (118592800 # 139408157) (179720500 # 139408157);
   qbuilt (0.68, 0.32) (0.265, 0.69) (0.15, 0.06) (0.314, 0.351) (23285 # 35568) (55795 # 53352) (122555 # 106704);
   qbuilt (0.68, 0.32) (0.265, 0.69) (0.15, 0.06) D65q (35783 # 50008) (3581 # 3572) (66083 # 50008);
   QS (Mat33 1.0498110175 0 (-0.0000974845) (-0.4959030231) 1.3733130458 0.0982400361 0 0 0.9912520182) (Mat33 0.9525523959 0 0.0000936786 0.3439664498 0.7281660966 (-0.0721325464) 0 0 1.0088251844) (0.32168, 0.33767);
   qbuilt (0.713, 0.293) (0.165, 0.83) (0.128, 0.044) (0.32168, 0.33767) (4712223000 # 5071769633) (4119021000 # 5071769633) (6188656000 # 5071769633);
   QS (Mat33 2.04159 (-0.56501) (-0.34473) (-0.96924) 1.87597 0.04156 0.01344 (-0.11836) 1.01517) (Mat33 0.57667 0.18556 0.18823 0.29734 0.62736 0.07529 0.02703 0.07069 0.99134) D65q]%Q.
Definition spaces {T} {O : RealOps T} : list (outcome (color_space T)) :=
  [Ret SRGB; SRGB_DRV; ITUR_BT709; ITUR_BT2020; DCI_P3; DCI_P3_D65; Ret ACES; ACES_CG; Ret ADOBE_RGB_1998].

Lemma built_describes s (r g b w : Q * Q) (a b' c : Q) : built s (qwhite r) (qwhite g) (qwhite b) (qwhite w) (Q2R a) (Q2R b') (Q2R c) -> describes (qbuilt r g b w a b' c) s.
Proof.
  intros (M & F & B & _ & _ & _ & W). unfold describes, qbuilt. cbn [q_fwd q_bwd q_white].
  match goal with |- context [qinv ?x] => set (m := x) end.
  assert (E : toR m = space_bwd (qwhite r) (qwhite g) (qwhite b) (Q2R a) (Q2R b') (Q2R c)).
  { unfold m, space_bwd, mcols, chroma, qwhite, vscale, v0, v1, v2. cbn [fst snd toR]. rewrite !q2r_red, !Q2R_mult, !Q2R_minus, !q2r_1. reflexivity. }
  pose proof (space_inverse _ _ _ _ _ _ _ M) as I. apply is_inverse_sym in I.
  split; [|split; [rewrite E; exact B|exact W]].
  rewrite F. f_equal. rewrite qinv_ok; [rewrite E; apply left_inverse_unique, I|]. intro Z. apply Qeq_eqR in Z. rewrite qdet_ok, E, q2r_0 in Z. exact (left_inverse_det _ _ (proj1 I) Z).
Qed.
Lemma all_described {K : XConst} {KO : XConstOk K} : Forall2 (fun q o => exists s, o = Ret s /\ describes q s) qspaces spaces.
Proof.
  unfold qspaces, spaces. repeat apply Forall2_cons; [..|apply Forall2_nil].
  1: { exists SRGB. split; [reflexivity|]. unfold describes, SRGB, cs_new_with_specified_matrices. cbn [xf_xyz_to_rgb xf_rgb_to_xyz cs_white q_fwd q_bwd q_white]. unfold FinM, FinXyy, qwhite, D65q, lxy. cbn [toR fst snd]. xs. split; [|split]; f_equal; apply (f_equal Fin); q2r; lra. }
  6: { exists ACES. split; [reflexivity|]. unfold describes, ACES, cs_new_with_specified_matrices. cbn [xf_xyz_to_rgb xf_rgb_to_xyz cs_white q_fwd q_bwd q_white]. unfold FinM, FinXyy, qwhite, lxy. cbn [toR fst snd]. xs. split; [|split]; f_equal; apply (f_equal Fin); q2r; lra. }
  7: { exists ADOBE_RGB_1998. split; [reflexivity|]. unfold describes, ADOBE_RGB_1998, cs_new_with_specified_matrices. cbn [xf_xyz_to_rgb xf_rgb_to_xyz cs_white q_fwd q_bwd q_white]. unfold FinM, FinXyy, qwhite, D65q, lxy. cbn [toR fst snd]. xs. split; [|split]; f_equal; apply (f_equal Fin); q2r; lra. }
  1: destruct srgb_built as (s & E & B). 2: destruct bt709_built as (s & E & B). 3: destruct bt2020_built as (s & E & B). 4: destruct p3_built as (s & E & B). 5: destruct p3d65_built as (s & E & B). 6: destruct acescg_built as (s & E & B).
  all: exists s; (split; [exact E|]); apply built_describes; unfold qwhite; cbn [fst snd D65q]; unfold D65 in B; exact B.
Qed.
Definition qpair (a b : qspace) : mat33 Q := qmul (qmul (q_fwd b) (qcat (q_white a) (q_white b))) (q_bwd a).
Lemma pair_exact {K : XConst} {KO : XConstOk K} a b (s t : color_space xr) : describes a s -> describes b t -> fit_white (q_white a) = true -> fit_white (q_white b) = true ->
  rgb_to_rgb_matrix s t = Ret (FinM (toR (qpair a b))).
Proof.
  intros (_ & SB & SW) (TF & _ & TW) HA HB. destruct (qcat_ok _ _ HA HB) as (C & U & V). unfold rgb_to_rgb_matrix. rewrite SW, TW, (cat02_white _ _ U V). cbn [obind]. rewrite SB, TF, !mat_mul_fin.
  unfold qpair. rewrite !qmul_ok, C. reflexivity.
Qed.
Lemma all_fit : Forall (fun q => fit_white (q_white q) = true) qspaces.
Proof. repeat constructor. Qed.
(* ---- the same matrices over common denominators: quick to multiply ---- *)
Inductive imat := IM (m : mat33 Z) (d : positive).
Definition toQ (i : imat) : mat33 Q := match i with IM (Mat33 a b c d e f g h j) n => Mat33 (a # n) (b # n) (c # n) (d # n) (e # n) (f # n) (g # n) (h # n) (j # n) end.
Definition zdot (a b c x y z : Z) : Z := (a * x + b * y + c * z)%Z.
Definition imul (p q : imat) : imat :=
  match p, q with
  | IM (Mat33 a b c d e f g h i) n, IM (Mat33 a' b' c' d' e' f' g' h' i') n' =>
      IM (Mat33 (zdot a b c a' d' g') (zdot a b c b' e' h') (zdot a b c c' f' i')
                (zdot d e f a' d' g') (zdot d e f b' e' h') (zdot d e f c' f' i')
                (zdot g h i a' d' g') (zdot g h i b' e' h') (zdot g h i c' f' i')) (n * n')
  end.
Lemma zdot_ok a b c x y z n n' : Q2R (zdot a b c x y z # (n * n')) = Q2R (a # n) * Q2R (x # n') + Q2R (b # n) * Q2R (y # n') + Q2R (c # n) * Q2R (z # n').
Proof. unfold Q2R, zdot. cbn [Qnum Qden]. rewrite Pos2Z.inj_mul, !plus_IZR, !mult_IZR. field. split; apply IZR_neq; discriminate. Qed.
Lemma imul_ok p q : toR (toQ (imul p q)) = mmul (toR (toQ p)) (toR (toQ q)).
Proof. destruct p as [[] n], q as [[] n']. cbn [imul toQ toR mmul]. rewrite !zdot_ok. reflexivity. Qed.
Definition over_common (m : mat33 Q) : imat :=
  match m with Mat33 a b c d e f g h i =>
    let n := fold_right (fun q n => Z.lcm (Zpos (Qden q)) n) 1%Z [a; b; c; d; e; f; g; h; i] in
    let z q := (Qnum q * (n / Zpos (Qden q)))%Z in IM (Mat33 (z a) (z b) (z c) (z d) (z e) (z f) (z g) (z h) (z i)) (Z.to_pos n) end.
Definition same_mat (i : imat) (m : mat33 Q) : bool :=
  match toQ i, m with Mat33 a b c d e f g h i, Mat33 a' b' c' d' e' f' g' h' i' =>
    (Qeq_bool a a' && Qeq_bool b b' && Qeq_bool c c' && Qeq_bool d d' && Qeq_bool e e' && Qeq_bool f f' && Qeq_bool g g' && Qeq_bool h h' && Qeq_bool i i')%bool end.
Lemma same_ok i m : same_mat i m = true -> toR (toQ i) = toR m.
Proof. unfold same_mat. destruct (toQ i), m. rewrite !andb_true_iff. intros H. repeat match goal with H : _ /\ _ |- _ => destruct H end. cbn [toR]. f_equal; apply Qeq_eqR, Qeq_bool_iff; assumption. Qed.
Definition whites : list (Q * Q) := [D65q; (0.314, 0.351); (0.32168, 0.33767)]%Q.
Definition white_of : list nat := [0; 0; 0; 0; 1; 0; 2; 2; 0]%nat.
Definition fwd_i : list imat := Eval vm_compute in map (fun q => over_common (q_fwd q)) qspaces.
Definition bwd_i : list imat := Eval vm_compute in map (fun q => over_common (q_bwd q)) qspaces.
Definition cat_i : list (list imat) := Eval vm_compute in map (fun a => map (fun b => over_common (qcat a b)) whites) whites.
Definition none_i : imat := IM (Mat33 0 0 0 0 0 0 0 0 0)%Z 1.
Definition ipair (i j : nat) : imat := imul (imul (nth j fwd_i none_i) (nth (nth j white_of 0%nat) (nth (nth i white_of 0%nat) cat_i []) none_i)) (nth i bwd_i none_i).
Lemma fwd_same : Forall2 (fun i q => same_mat i (q_fwd q) = true) fwd_i qspaces.
Proof. unfold fwd_i, qspaces. repeat apply Forall2_cons; [..|apply Forall2_nil]; vm_compute; reflexivity. Qed.
Lemma bwd_same : Forall2 (fun i q => same_mat i (q_bwd q) = true) bwd_i qspaces.
Proof. unfold bwd_i, qspaces. repeat apply Forall2_cons; [..|apply Forall2_nil]; vm_compute; reflexivity. Qed.
Lemma cat_same : Forall2 (fun l a => Forall2 (fun i b => same_mat i (qcat a b) = true) l whites) cat_i whites.
Proof. unfold cat_i, whites. apply Forall2_cons; [|apply Forall2_cons; [|apply Forall2_cons; [|apply Forall2_nil]]]; (apply Forall2_cons; [|apply Forall2_cons; [|apply Forall2_cons; [|apply Forall2_nil]]]; vm_compute; reflexivity). Qed.
Lemma nth_Forall2 {A B} (P : A -> B -> Prop) l l' i a b : Forall2 P l l' -> nth_error l i = Some a -> nth_error l' i = Some b -> P a b.
Proof. intro F. revert i. induction F as [|x y l l' H F IH]; intros [|i]; cbn; try discriminate. - intros [= <-] [= <-]. exact H. - apply IH. Qed.
Lemma nth_same {A B} (P : A -> B -> Prop) l l' d i b : Forall2 P l l' -> nth_error l' i = Some b -> P (nth i l d) b.
Proof. intro F. revert i. induction F as [|x y l l' H F IH]; intros [|i]; cbn; try discriminate. - intros [= <-]. exact H. - apply IH. Qed.
Lemma white_is i a : nth_error qspaces i = Some a -> nth_error whites (nth i white_of 0%nat) = Some (q_white a).
Proof. destruct i as [|[|[|[|[|[|[|[|[|i]]]]]]]]]; cbn [nth_error qspaces]; intro H; try (injection H as <-; reflexivity). destruct i; discriminate. Qed.
Lemma ipair_ok i j a b : nth_error qspaces i = Some a -> nth_error qspaces j = Some b -> toR (toQ (ipair i j)) = toR (qpair a b).
Proof.
  intros A B. unfold ipair, qpair. rewrite !imul_ok, !qmul_ok. f_equal; [f_equal|].
  - apply same_ok. exact (nth_same _ _ _ _ _ _ fwd_same B).
  - apply same_ok. pose proof (nth_same _ _ _ [] _ _ cat_same (white_is i a A)) as H. exact (nth_same _ _ _ _ _ _ H (white_is j b B)).
  - apply same_ok. exact (nth_same _ _ _ _ _ _ bwd_same A).
Qed.
