(* Matrix33 on exact reals *)
From Coq Require Import Reals ZArith QArith Qreals Lra Lia List Bool.
From Verif Require Import Outcome RealOps MathModel ColorModel XReal SpecLin.
Import ListNotations.
Open Scope R_scope.

(* evaluate matrix code on concrete indices; leaves real arithmetic and divisions alone *)
Ltac mev := cbv beta iota zeta delta [mat_mul fold_left seq mset mget mat_nth Nat.eqb Nat.mul Nat.add
  Nat.sub mx0 mx1 mx2 mx3 mx4 mx5 mx6 mx7 mx8 FinM mmul mone mat_identity mat_determinant mdet
  mat_transposed mtr mat_map inv_cofactors madj mscale
  radd rsub rmul rneg rzero rone rabs xr_ops xlift2 xlift1 fst snd].

Section MatX.
Context {K : XConst} {KO : XConstOk K}.

Lemma mat_mul_fin p q : mat_mul (FinM p) (FinM q) = FinM (mmul p q).
Proof. destruct p, q; mev; fin_ring. Qed.
Lemma mat_identity_fin : mat_identity = FinM mone.
Proof. reflexivity. Qed.
Lemma mat_determinant_fin p : mat_determinant (FinM p) = Fin (mdet p).
Proof. destruct p; cbn; f_equal; ring. Qed.
Lemma mat_transposed_fin p : mat_transposed (FinM p) = FinM (mtr p).
Proof. destruct p; reflexivity. Qed.
Lemma mat_mul_xyz_fin p v : mat_mul_xyz (FinM p) (FinXyz v) = FinXyz (mapp p v).
Proof. destruct p, v as [[x y] z]; reflexivity. Qed.
Lemma mat_mul_rgb_fin p v : mat_mul_rgb (FinM p) (FinRgb v) = FinRgb (mapp p v).
Proof. destruct p, v as [[x y] z]; reflexivity. Qed.

(* ---- inverse ---- *)
Definition Rcof (p : RM) : RM := madj p.

(* the general branch of the test on line 270 *)
Definition general_case (p : RM) : Prop :=
  match p with
  | Mat33 _ _ c _ _ f _ _ i => xeps < c \/ xeps < f \/ xeps < Rabs (i - 1)
  end.

Lemma inv_general_spec p : reflect (general_case p) (inv_general (FinM p)).
Proof.
  destruct p as [a b c d e f g h i]. unfold inv_general, mget; cbn [FinM mat_nth mx2 mx5 mx8 Nat.mul Nat.add].
  xs. destruct (Rltb_spec xeps c); cbn [orb]; [constructor; cbn; tauto|].
  destruct (Rltb_spec xeps f); cbn [orb]; [constructor; cbn; tauto|].
  destruct (Rltb_spec xeps (Rabs (i - 1))); constructor; cbn; tauto.
Qed.

(* entries of a matrix all satisfy P *)
Definition mall (P : R -> Prop) (p : RM) : Prop :=
  match p with
  | Mat33 a b c d e f g h i => P a /\ P b /\ P c /\ P d /\ P e /\ P f /\ P g /\ P h /\ P i
  end.

Definition scalable (r : R) (s : RM) : Prop :=
  1 <= Rabs r \/ mall (fun e => Rabs e < Rabs r / xtiny) s.

Lemma scalable_nz r s : scalable r s -> r <> 0.
Proof.
  intros [H|H] E; subst r; rewrite Rabs_R0 in H; [lra|].
  destruct s as [a b c d e f g h i]; destruct H as [H _].
  assert (0 / xtiny = 0) by (unfold Rdiv; ring).
  pose proof (Rabs_pos a). lra.
Qed.

Lemma inv_scale_spec r s :
  (scalable r s /\ inv_scale (Fin r) (FinM s) = Some (FinM (mscale (/ r) s)))
  \/ (~ scalable r s /\ inv_scale (Fin r) (FinM s) = None).
Proof.
  assert (Hm : r <> 0 -> mat_map (fun e => rdiv e (Fin r)) (FinM s) = FinM (mscale (/ r) s)).
  { intro H. destruct s as [a b c d e f g h i]; unfold mat_map; cbn [FinM mx0 mx1 mx2 mx3 mx4 mx5 mx6 mx7 mx8].
    rewrite !(x_div _ _ H). cbn. fin_ring; field; exact H. }
  unfold inv_scale. xs.
  destruct (Rleb_spec 1 (Rabs r)) as [H|H].
  - left. assert (S : scalable r s) by (left; exact H). split; [exact S|].
    rewrite Hm; [reflexivity|]. exact (scalable_nz _ _ S).
  - pose proof (@xtiny_pos K KO) as Ht.
    rewrite (x_div (Rabs r) xtiny) by lra.
    assert (B : forallb (fun e => rlt (rabs e) (Fin (Rabs r / xtiny))) (mat_list (FinM s)) = true
                <-> mall (fun e => Rabs e < Rabs r / xtiny) s).
    { destruct s as [a b c d e f g h i]; cbn [FinM mat_list mx0 mx1 mx2 mx3 mx4 mx5 mx6 mx7 mx8 forallb mall]. xs.
      rewrite !andb_true_iff.
      repeat match goal with |- context [Rltb ?u ?v] =>
        let H := fresh in
        assert (H : Rltb u v = true <-> u < v) by (destruct (Rltb_spec u v); split; intro; try assumption; congruence);
        rewrite H; clear H end.
      tauto. }
    destruct (forallb _ _) eqn:F.
    + left. assert (S : scalable r s) by (right; tauto). split; [exact S|].
      rewrite Hm; [reflexivity|]. exact (scalable_nz _ _ S).
    + right. split; [|reflexivity]. intros [S|S]; [lra|].
      assert (false = true) by tauto. discriminate.
Qed.

Lemma inv_cofactors_fin p : inv_cofactors (FinM p) = FinM (madj p).
Proof. destruct p; mev; fin_ring. Qed.

(* general branch: exactly the scaled adjugate *)
Lemma inverse_general p : general_case p ->
  (scalable (mdet p) (madj p) /\ mat_inverse (FinM p) = Some (FinM (minv p)))
  \/ (~ scalable (mdet p) (madj p) /\ mat_inverse (FinM p) = None).
Proof.
  intro G. unfold mat_inverse.
  destruct (inv_general_spec p) as [_|N]; [|contradiction].
  rewrite inv_cofactors_fin.
  replace (radd _ _) with (Fin (mdet p)).
  - exact (inv_scale_spec (mdet p) (madj p)).
  - destruct p; mev. apply (f_equal Fin); ring.
Qed.

(* affine branch: what is returned *)
Definition affine_s (p : RM) : RM :=
  match p with Mat33 a b c d e f g h i => Mat33 e (- b) 0 (- d) a 0 0 0 1 end.
Definition affine_r (p : RM) : R :=
  match p with Mat33 a b c d e f g h i => a * e - d * b end.
Definition affine_result (p : RM) : RM :=
  match p with
  | Mat33 a b c d e f g h i =>
      let r := a * e - d * b in
      Mat33 (e / r) (- b / r) 0 (- d / r) (a / r) 0
            (- g * (e / r) - h * (- d / r)) (- g * (- b / r) - h * (a / r)) (1 / r)
  end.

Lemma inverse_affine p : ~ general_case p ->
  (scalable (affine_r p) (affine_s p) /\ mat_inverse (FinM p) = Some (FinM (affine_result p)))
  \/ (~ scalable (affine_r p) (affine_s p) /\ mat_inverse (FinM p) = None).
Proof.
  intro G. unfold mat_inverse.
  destruct (inv_general_spec p) as [Y|_]; [contradiction|].
  assert (ES : Mat33 (mget (FinM p) 1 1) (rneg (mget (FinM p) 0 1)) rzero
                   (rneg (mget (FinM p) 1 0)) (mget (FinM p) 0 0) rzero
                   rzero rzero rone = FinM (affine_s p)) by (destruct p; reflexivity).
  rewrite ES. clear ES.
  match goal with |- context [inv_scale ?r _] => replace r with (Fin (affine_r p)) by (destruct p; reflexivity) end.
  destruct (inv_scale_spec (affine_r p) (affine_s p)) as [[S E]|[S E]]; rewrite E; [left|right]; (split; [exact S|]).
  - cbn [opt_bind]. f_equal. pose proof (scalable_nz _ _ S) as NZ.
    destruct p; unfold affine_result, affine_s, affine_r in *; mev. f_equal; apply (f_equal Fin); field; exact NZ.
  - reflexivity.
Qed.

(* when the affine branch is right *)
Lemma affine_result_right p : affine_r p <> 0 ->
  (is_inverse (affine_result p) p <->
   match p with
   | Mat33 a b c d e f g h i =>
       c = 0 /\ f = 0 /\ i = affine_r p /\ (affine_r p = 1 \/ (g = 0 /\ h = 0))
   end).
Proof.
  intro NZ. destruct p as [a b c d e f g h i]. unfold affine_r in *. set (r := a * e - d * b) in *.
  split.
  - intros [H _]. unfold affine_result in H. fold r in H. cbv zeta in H. cbn in H. unfold mone in H.
    injection H as H00 H01 H02 H10 H11 H12 H20 H21 H22.
    assert (E02 : e * c - b * f = 0).
    { replace (e * c - b * f) with (r * (e / r * c + - b / r * f + 0 * i)) by (field; exact NZ).
      rewrite H02; ring. }
    assert (E12 : - d * c + a * f = 0).
    { replace (- d * c + a * f) with (r * (- d / r * c + a / r * f + 0 * i)) by (field; exact NZ).
      rewrite H12; ring. }
    assert (Ec : c = 0).
    { apply (Rmult_eq_reg_l r); [|exact NZ]. replace (r * c) with (a * (e * c - b * f) + b * (- d * c + a * f)) by (unfold r; ring).
      rewrite E02, E12; ring. }
    assert (Ef : f = 0).
    { apply (Rmult_eq_reg_l r); [|exact NZ]. replace (r * f) with (d * (e * c - b * f) + e * (- d * c + a * f)) by (unfold r; ring).
      rewrite E02, E12; ring. }
    subst c f.
    assert (Ei : i = r).
    { apply (Rmult_eq_reg_l (/ r)); [|apply Rinv_neq_0_compat; exact NZ].
      rewrite Rinv_l by exact NZ. rewrite <- H22. unfold Rdiv. ring. }
    assert (Eg : g * (1 - r) = 0).
    { replace (g * (1 - r)) with (r * ((- g * (e / r) - h * (- d / r)) * a + (- g * (- b / r) - h * (a / r)) * d + 1 / r * g)).
      - rewrite H20; ring.
      - transitivity (- g * (a * e - d * b) + g); [field; exact NZ | fold r; ring]. }
    assert (Eh : h * (1 - r) = 0).
    { replace (h * (1 - r)) with (r * ((- g * (e / r) - h * (- d / r)) * b + (- g * (- b / r) - h * (a / r)) * e + 1 / r * h)).
      - rewrite H21; ring.
      - transitivity (- h * (a * e - d * b) + h); [field; exact NZ | fold r; ring]. }
    repeat split; try assumption.
    destruct (Req_dec r 1) as [E|E]; [left; exact E|right].
    split; [apply Rmult_integral in Eg | apply Rmult_integral in Eh]; lra.
  - intros (Ec & Ef & Ei & D). apply left_is_inverse. subst c f i.
    unfold affine_result. fold r. cbv zeta. cbn. unfold mone.
    assert (Er : r = a * e - d * b) by reflexivity. clearbody r.
    destruct D as [D|[Dg Dh]].
    + assert (E1 : a * e - d * b = 1) by lra. rewrite D. clear Er D NZ r.
      f_equal; try lra.
      * transitivity (g * (1 - (a * e - d * b))); [field | rewrite E1; ring].
      * transitivity (h * (1 - (a * e - d * b))); [field | rewrite E1; ring].
    + subst g h. f_equal; try (field; lra).
      * apply (Rmult_eq_reg_l r); [|exact NZ]. transitivity (a * e - d * b); [field; exact NZ| lra].
      * apply (Rmult_eq_reg_l r); [|exact NZ]. transitivity (a * e - d * b); [field; exact NZ| lra].
Qed.

End MatX.
