(* xyY/XYZ conversion and chromatic adaptation on exact reals *)
From Coq Require Import Reals ZArith QArith Qreals Lra Lia List Bool.
From Verif Require Import Outcome RealOps MathModel ColorModel AdaptModel XReal SpecLin MatProofs.
Import ListNotations.
Open Scope R_scope.

Definition FinXyy (v : vec) : xyy xr := match v with (x, y, l) => Xyy (Fin x) (Fin y) (Fin l) end.

(* the three components *)
Definition v0 (v : vec) : R := fst (fst v).
Definition v1 (v : vec) : R := snd (fst v).
Definition v2 (v : vec) : R := snd v.
Definition nonzero3 (v : vec) : Prop := v0 v <> 0 /\ v1 v <> 0 /\ v2 v <> 0.

(* the published matrices, as real numbers *)
Definition bradford_mat : RM :=
  M3 0.8951 0.2664 (-0.1614)
     (-0.7502) 1.7135 0.0367
     0.0389 (-0.0685) 1.0296.
Definition cat02_mat : RM :=
  M3 0.7328 0.4296 (-0.1624)
     (-0.7036) 1.6975 0.0061
     0.0030 0.0136 0.9834.
Definition von_kries_mat : RM :=
  M3 0.40024 0.7076 (-0.08081)
     (-0.2263) 1.16532 0.0457
     0 0 0.91822.
Definition von_kries_mat_inv : RM :=
  M3 1.8599364 (-1.1293816) 0.2198974
     0.3611914 0.6388125 (-0.0000064)
     0 0 1.0890636.

Definition mdiag (a b c : R) : RM := M3 a 0 0 0 b 0 0 0 c.
(* von Kries adaptation in the cone space of M *)
Definition adapt (M N : RM) (s d : vec) : RM :=
  mmul (mmul N (mdiag (v0 (mapp M d) / v0 (mapp M s)) (v1 (mapp M d) / v1 (mapp M s))
                      (v2 (mapp M d) / v2 (mapp M s)))) M.

Ltac lits := cbn [Q2R Qnum Qden]; unfold Q2R; cbn [Qnum Qden]; lra.

Section Adapt.
Context {K : XConst} {KO : XConstOk K}.

Lemma bradford_M_fin : bradford_M = FinM bradford_mat.
Proof. unfold bradford_M, bradford_mat, FinM. xs. f_equal; apply (f_equal Fin); lits. Qed.
Lemma cat02_M_fin : cat02_M = FinM cat02_mat.
Proof. unfold cat02_M, cat02_mat, FinM. xs. f_equal; apply (f_equal Fin); lits. Qed.
Lemma von_kries_M_fin : von_kries_M = FinM von_kries_mat.
Proof. unfold von_kries_M, von_kries_mat, FinM. xs. f_equal; apply (f_equal Fin); lits. Qed.
Lemma von_kries_M_inv_fin : von_kries_M_inv = FinM von_kries_mat_inv.
Proof. unfold von_kries_M_inv, von_kries_mat_inv, FinM. xs. f_equal; apply (f_equal Fin); lits. Qed.

Lemma bradford_det : 1 < mdet bradford_mat.
Proof. unfold bradford_mat, mdet. lra. Qed.
Lemma cat02_det : 1 < mdet cat02_mat.
Proof. unfold cat02_mat, mdet. lra. Qed.

Lemma inverse_big p : general_case p -> 1 < mdet p -> mat_inverse (FinM p) = Some (FinM (minv p)).
Proof.
  intros G D. destruct (inverse_general p G) as [[_ E]|[N _]]; [exact E|].
  elim N. left. rewrite Rabs_pos_eq; lra.
Qed.
Lemma bradford_inverse : mat_inverse bradford_M = Some (FinM (minv bradford_mat)).
Proof.
  rewrite bradford_M_fin. apply inverse_big; [|exact bradford_det].
  right. left. pose proof (@xeps_small K KO). lra.
Qed.
Lemma cat02_inverse : mat_inverse cat02_M = Some (FinM (minv cat02_mat)).
Proof.
  rewrite cat02_M_fin. apply inverse_big; [|exact cat02_det].
  right. left. pose proof (@xeps_small K KO). lra.
Qed.

Lemma cat_apply_fin M N s d : nonzero3 (mapp M s) ->
  cat_apply (FinM M) (FinM N) (FinXyz s) (FinXyz d) = FinM (adapt M N s d).
Proof.
  intro H. unfold cat_apply. rewrite !mat_mul_xyz_fin.
  unfold adapt. rewrite <- !mat_mul_fin. f_equal. f_equal.
  unfold nonzero3, v0, v1, v2 in *. destruct (mapp M s) as [[a b] c], (mapp M d) as [[a' b'] c'].
  cbn [fst snd] in *. destruct H as (Ha & Hb & Hc).
  unfold FinXyz. cbn [xyz_x xyz_y xyz_z]. rewrite !x_div by assumption. xs.
  unfold mdiag, FinM. f_equal; apply (f_equal Fin); lits.
Qed.

Lemma xyz_eqb_fin u v : xyz_eqb (FinXyz u) (FinXyz v) = true <-> u = v.
Proof.
  destruct u as [[a b] c], v as [[a' b'] c']. unfold xyz_eqb, FinXyz. cbn [xyz_x xyz_y xyz_z]. xs.
  destruct (Reqb_spec a a'), (Reqb_spec b b'), (Reqb_spec c c'); cbn; split; intro H; try congruence.
Qed.
End Adapt.

Definition pdiv (u v : vec) : vec := (v0 u / v0 v, v1 u / v1 v, v2 u / v2 v).
Definition pmul (u v : vec) : vec := (v0 u * v0 v, v1 u * v1 v, v2 u * v2 v).

(* in cone space the adaptation scales each channel by the ratio of the whites *)
Lemma adapt_cone M N s d v : mmul M N = mone ->
  mapp M (mapp (adapt M N s d) v) = pmul (pdiv (mapp M d) (mapp M s)) (mapp M v).
Proof.
  intro E. unfold adapt. rewrite !mapp_mul.
  rewrite <- (mapp_mul M N), E, mapp_one.
  unfold pmul, pdiv, v0, v1, v2. destruct (mapp M v) as [[a b] c].
  destruct (mapp M s) as [[? ?] ?], (mapp M d) as [[? ?] ?]. cbn [fst snd mapp mdiag]. vec_ring.
Qed.
Lemma adapt_white M N s d : mmul N M = mone -> nonzero3 (mapp M s) -> mapp (adapt M N s d) s = d.
Proof.
  intros E H. unfold adapt. rewrite !mapp_mul.
  transitivity (mapp N (mapp M d)).
  - f_equal. unfold nonzero3, v0, v1, v2 in *. destruct (mapp M s) as [[a b] c], (mapp M d) as [[a' b'] c'].
    cbn [fst snd] in *. destruct H as (Ha & Hb & Hc). cbn. vec_ring; field; assumption.
  - rewrite <- mapp_mul, E, mapp_one. reflexivity.
Qed.
Lemma adapt_self M N s : mmul N M = mone -> nonzero3 (mapp M s) -> adapt M N s s = mone.
Proof.
  intros E H. unfold adapt. destruct H as (Ha & Hb & Hc).
  unfold Rdiv. rewrite !Rinv_r by assumption. change (mdiag 1 1 1) with mone.
  rewrite mmul_1_r. exact E.
Qed.
Lemma adapt_compose M N a b c : mmul M N = mone -> nonzero3 (mapp M a) -> nonzero3 (mapp M b) ->
  mmul (adapt M N b c) (adapt M N a b) = adapt M N a c.
Proof.
  intros E Ha Hb. unfold adapt.
  set (D1 := mdiag (v0 (mapp M c) / _) _ _). set (D2 := mdiag (v0 (mapp M b) / _) _ _).
  set (D3 := mdiag (v0 (mapp M c) / v0 (mapp M a)) _ _).
  assert (ED : mmul D1 D2 = D3).
  { unfold D1, D2, D3, nonzero3, v0, v1, v2 in *. destruct (mapp M a) as [[? ?] ?], (mapp M b) as [[? ?] ?], (mapp M c) as [[? ?] ?].
    cbn [fst snd] in *. destruct Ha as (? & ? & ?), Hb as (? & ? & ?). cbn. unfold mdiag. f_equal; field; tauto. }
  rewrite <- ED. rewrite !mmul_assoc. do 2 f_equal.
  rewrite <- (mmul_assoc M N), E, mmul_1_l. reflexivity.
Qed.

Section Adapt2.
Context {K : XConst} {KO : XConstOk K}.
Notation bfd s d := (adapt bradford_mat (minv bradford_mat) s d).
Notation c02 s d := (adapt cat02_mat (minv cat02_mat) s d).

Lemma bradford_nz : mdet bradford_mat <> 0.
Proof. pose proof bradford_det. lra. Qed.
Lemma cat02_nz : mdet cat02_mat <> 0.
Proof. pose proof cat02_det. lra. Qed.

Lemma bradford_fin s d : nonzero3 (mapp bradford_mat s) ->
  bradford (FinXyz s) (FinXyz d) = Ret (FinM (bfd s d)).
Proof.
  intro H. unfold bradford. destruct (xyz_eqb _ _) eqn:E.
  - apply xyz_eqb_fin in E. subst d. rewrite adapt_self; [reflexivity | apply minv_l, bradford_nz | exact H].
  - rewrite bradford_inverse. cbn [unwrap obind]. rewrite bradford_M_fin, cat_apply_fin by exact H. reflexivity.
Qed.
Lemma cat02_fin s d : nonzero3 (mapp cat02_mat s) ->
  cat02 (FinXyz s) (FinXyz d) = Ret (FinM (c02 s d)).
Proof.
  intro H. unfold cat02. destruct (xyz_eqb _ _) eqn:E.
  - apply xyz_eqb_fin in E. subst d. rewrite adapt_self; [reflexivity | apply minv_l, cat02_nz | exact H].
  - rewrite cat02_inverse. cbn [unwrap obind]. rewrite cat02_M_fin, cat_apply_fin by exact H. reflexivity.
Qed.
Lemma von_kries_fin s d : nonzero3 (mapp von_kries_mat s) -> s <> d ->
  von_kries (FinXyz s) (FinXyz d) = FinM (adapt von_kries_mat von_kries_mat_inv s d).
Proof.
  intros H N. unfold von_kries. destruct (xyz_eqb _ _) eqn:E.
  - apply xyz_eqb_fin in E. contradiction.
  - rewrite von_kries_M_fin, von_kries_M_inv_fin, cat_apply_fin by exact H. reflexivity.
Qed.

(* ---- xyY and XYZ ---- *)
Lemma xyz_from_chromaticity_fin x y l : y <> 0 ->
  xyz_from_chromaticity (FinXyy (x, y, l))
  = FinXyz (100 * (x * l / y), 100 * l, 100 * ((1 - x - y) * l / y)).
Proof.
  intro H. unfold xyz_from_chromaticity, xyz_mul_s, FinXyy, FinXyz. cbn [xyy_x xyy_y xyy_Y xyz_x xyz_y xyz_z].
  xs. rewrite !x_div by exact H. xs. f_equal; apply (f_equal Fin); q2r; lra.
Qed.
Lemma xyy_from_xyz_fin x y z : x + y + z <> 0 ->
  xyy_from_xyz (FinXyz (x, y, z)) = FinXyy (x / (x + y + z), y / (x + y + z), y / 100).
Proof.
  intro H. unfold xyy_from_xyz, xyz_div_s, FinXyy, FinXyz. cbn [xyz_x xyz_y xyz_z].
  xs. assert (E : Q2R 100.0 = 100) by (q2r; lra). rewrite E.
  rewrite !x_div by lra. xs. rewrite !x_div by lra. f_equal; apply (f_equal Fin); field; lra.
Qed.
End Adapt2.
