(* Signs in floating point: negating an operand negates a product or a quotient, and swapping the
   operands of a difference negates it, unless it is zero. *)
From Coq Require Import Reals ZArith Lra Lia Bool.
From Flocq Require Import Core BinarySingleNaN.
From Verif Require Import FloatInst FloatProofs.
Open Scope R_scope.

Section Opp.
Context (prec emax : Z) {Hp : Prec_gt_0 prec} {He : Prec_lt_emax prec emax}.
Notation fl := (binary_float prec emax).
Notation fexp := (SpecFloat.fexp prec emax).
Notation rnd := (round radix2 fexp ZnearestE).

Lemma inf_of (x : fl) s : B2SF x = binary_overflow prec emax mode_NE s -> x = B754_infinity s.
Proof. intro H. destruct x as [t|t| |t m e B]; cbn in H; try discriminate H. injection H as ->. reflexivity. Qed.
Lemma mult_opp (x y : fl) : Bmult mode_NE (Bopp x) y = Bopp (Bmult mode_NE x y).
Proof.
  destruct x as [sx|sx| |sx mx ex Bx], y as [sy|sy| |sy my ey By]; try reflexivity; try (destruct sx, sy; reflexivity).
  set (x := B754_finite sx mx ex Bx). set (y := B754_finite sy my ey By).
  pose proof (Bmult_correct prec emax _ _ mode_NE x y) as A. pose proof (Bmult_correct prec emax _ _ mode_NE (Bopp x) y) as B. cbn [round_mode] in A, B.
  rewrite B2R_Bopp, <- Ropp_mult_distr_l, round_NE_opp, Rabs_Ropp in B. destruct (Rlt_bool _ _).
  - destruct A as (A1 & A2 & A3), B as (B1 & B2 & B3). change (is_finite x && is_finite y)%bool with true in A2. change (is_finite (Bopp x) && is_finite y)%bool with true in B2.
    assert (NA : is_nan (Bmult mode_NE x y) = false) by (destruct (Bmult mode_NE x y); try discriminate A2; reflexivity). assert (NB : is_nan (Bmult mode_NE (Bopp x) y) = false) by (destruct (Bmult mode_NE (Bopp x) y); try discriminate B2; reflexivity).
    apply B2R_Bsign_inj; [exact B2|rewrite is_finite_Bopp; exact A2|rewrite B2R_Bopp, A1, B1; reflexivity|].
    rewrite (Bsign_Bopp _ _ _ NA), (A3 NA), (B3 NB), (Bsign_Bopp _ _ x) by reflexivity. destruct (Bsign x), (Bsign y); reflexivity.
  - apply inf_of in A, B. rewrite A, B. cbn [Bopp]. rewrite (Bsign_Bopp _ _ x) by reflexivity. destruct (Bsign x), (Bsign y); reflexivity.
Qed.
Lemma mult_opp_r (x y : fl) : Bmult mode_NE x (Bopp y) = Bopp (Bmult mode_NE x y).
Proof. rewrite !(Bmult_comm prec emax x). apply mult_opp. Qed.
Lemma div_opp (x y : fl) : Bdiv mode_NE (Bopp x) y = Bopp (Bdiv mode_NE x y).
Proof.
  destruct x as [sx|sx| |sx mx ex Bx], y as [sy|sy| |sy my ey By]; try reflexivity; try (destruct sx, sy; reflexivity).
  set (x := B754_finite sx mx ex Bx). set (y := B754_finite sy my ey By).
  assert (NY : B2R y <> 0) by (unfold y; cbn [B2R]; apply F2R_neq_0; destruct sy; discriminate).
  pose proof (Bdiv_correct prec emax _ _ mode_NE x y NY) as A. pose proof (Bdiv_correct prec emax _ _ mode_NE (Bopp x) y NY) as B. cbn [round_mode] in A, B.
  rewrite B2R_Bopp in B. unfold Rdiv in A, B. rewrite <- Ropp_mult_distr_l, round_NE_opp, Rabs_Ropp in B. destruct (Rlt_bool _ _).
  - destruct A as (A1 & A2 & A3), B as (B1 & B2 & B3). change (is_finite x)%bool with true in A2. change (is_finite (Bopp x))%bool with true in B2.
    assert (NA : is_nan (Bdiv mode_NE x y) = false) by (destruct (Bdiv mode_NE x y); try discriminate A2; reflexivity). assert (NB : is_nan (Bdiv mode_NE (Bopp x) y) = false) by (destruct (Bdiv mode_NE (Bopp x) y); try discriminate B2; reflexivity).
    apply B2R_Bsign_inj; [exact B2|rewrite is_finite_Bopp; exact A2|rewrite B2R_Bopp, A1, B1; reflexivity|].
    rewrite (Bsign_Bopp _ _ _ NA), (A3 NA), (B3 NB), (Bsign_Bopp _ _ x) by reflexivity. destruct (Bsign x), (Bsign y); reflexivity.
  - apply inf_of in A, B. rewrite A, B. cbn [Bopp]. rewrite (Bsign_Bopp _ _ x) by reflexivity. destruct (Bsign x), (Bsign y); reflexivity.
Qed.

Definition zerof (x : fl) : bool := match x with B754_zero _ => true | _ => false end.
Lemma zerof_R x : is_finite x = true -> B2R x = 0 -> zerof x = true.
Proof. intros F E. destruct x as [s|s| |s m e B]; try discriminate F; [reflexivity|]. exfalso. revert E. cbn [B2R]. apply F2R_neq_0. destruct s; discriminate. Qed.
(* opposite, or one and the same zero *)
Definition opp (x y : fl) : Prop := y = Bopp x \/ (y = x /\ zerof x = true).
Lemma opp_sym x y : opp x y -> opp y x.
Proof. intros [->|[-> Z]]; [left; rewrite Bopp_involutive; reflexivity|right; split; [reflexivity|exact Z]]. Qed.
Lemma plus_opp (x y : fl) : opp (Bplus mode_NE x y) (Bplus mode_NE (Bopp x) (Bopp y)).
Proof.
  destruct (is_finite x) eqn:Fx; [|destruct x as [sx|sx| |], y as [sy|sy| |sy my ey By]; try discriminate Fx; left; try reflexivity; destruct sx, sy; reflexivity].
  destruct (is_finite y) eqn:Fy; [|destruct y as [sy|sy| |], x as [sx|sx| |sx mx ex Bx]; try discriminate Fy; try discriminate Fx; left; try reflexivity; destruct sx, sy; reflexivity].
  pose proof (Bplus_correct prec emax _ _ mode_NE x y Fx Fy) as A. pose proof (Bplus_correct prec emax _ _ mode_NE (Bopp x) (Bopp y) ltac:(rewrite is_finite_Bopp; exact Fx) ltac:(rewrite is_finite_Bopp; exact Fy)) as B. cbn [round_mode] in A, B.
  rewrite !B2R_Bopp in B. replace (- B2R x + - B2R y) with (- (B2R x + B2R y)) in B by ring. rewrite round_NE_opp, Rabs_Ropp in B.
  assert (NX : is_nan x = false) by (destruct x; try discriminate Fx; reflexivity). assert (NY : is_nan y = false) by (destruct y; try discriminate Fy; reflexivity). rewrite !Bsign_Bopp in B by assumption.
  destruct (Rlt_bool _ _).
  - destruct A as (A1 & A2 & A3), B as (B1 & B2 & B3).
    assert (NA : is_nan (Bplus mode_NE x y) = false) by (destruct (Bplus mode_NE x y); try discriminate A2; reflexivity).
    assert (E0 : B2R (Bplus mode_NE (Bopp x) (Bopp y)) = B2R (Bopp (Bplus mode_NE x y))) by (rewrite B2R_Bopp, A1, B1; reflexivity).
    destruct (total_order_T (B2R x + B2R y) 0) as [[S|S]|S].
    + left. apply B2R_Bsign_inj; [exact B2|rewrite is_finite_Bopp; exact A2|exact E0|]. rewrite (Bsign_Bopp _ _ _ NA), A3, B3. rewrite (Rcompare_Lt (B2R x + B2R y)) by exact S. rewrite Rcompare_Gt by lra. reflexivity.
    + rewrite S in A1, A3, B1, B3. rewrite Ropp_0 in B3. rewrite round_0 in A1, B1 by typeclasses eauto. rewrite Rcompare_Eq in A3, B3 by reflexivity. destruct (Bsign x), (Bsign y); cbn [negb andb] in A3, B3;
      try (left; apply B2R_Bsign_inj; [exact B2|rewrite is_finite_Bopp; exact A2|exact E0|rewrite (Bsign_Bopp _ _ _ NA), A3, B3; reflexivity]);
      (right; split; [apply B2R_Bsign_inj; [exact B2|exact A2|rewrite A1, B1; ring|rewrite A3, B3; reflexivity]|apply zerof_R; [exact A2|exact A1]]).
    + left. apply B2R_Bsign_inj; [exact B2|rewrite is_finite_Bopp; exact A2|exact E0|]. rewrite (Bsign_Bopp _ _ _ NA), A3, B3. rewrite (Rcompare_Gt (B2R x + B2R y)) by exact S. rewrite Rcompare_Lt by lra. reflexivity.
  - destruct A as [A _], B as [B _]. apply inf_of in A, B. left. rewrite A, B. reflexivity.
Qed.
Lemma minus_is (x y : fl) : Bminus mode_NE x y = Bplus mode_NE x (Bopp y).
Proof. destruct x as [sx|sx| |sx mx ex Bx], y as [sy|sy| |sy my ey By]; try reflexivity; try (destruct sx, sy; reflexivity). Qed.
Lemma minus_swap (x y : fl) : opp (Bminus mode_NE x y) (Bminus mode_NE y x).
Proof. rewrite !minus_is. rewrite (Bplus_comm prec emax y). pose proof (plus_opp x (Bopp y)) as H. rewrite Bopp_involutive in H. exact H. Qed.
Lemma opp_nan x : zerof x = true -> forall z, opp (Bmult mode_NE z x) (Bmult mode_NE z x).
Proof. intros Z z. destruct x; try discriminate Z. destruct z; [right; split; reflexivity|left; reflexivity|left; reflexivity|right; split; reflexivity]. Qed.
Lemma opp_mult z x y : opp x y -> opp (Bmult mode_NE z x) (Bmult mode_NE z y).
Proof. intros [->|[-> Z]]; [left; apply mult_opp_r|apply opp_nan, Z]. Qed.
Lemma opp_div z x y : opp x y -> opp (Bdiv mode_NE x z) (Bdiv mode_NE y z).
Proof. intros [->|[-> Z]]; [left; apply div_opp|]. destruct x; try discriminate Z. destruct z; [left; reflexivity|right; split; reflexivity|left; reflexivity|right; split; reflexivity]. Qed.
Lemma opp_sqr x y : opp x y -> Bmult mode_NE x x = Bmult mode_NE y y.
Proof. intros [->|[-> _]]; [|reflexivity]. rewrite mult_opp, mult_opp_r, Bopp_involutive. reflexivity. Qed.
Lemma opp_abs x y : opp x y -> Babs x = Babs y.
Proof. intros [->|[-> _]]; [symmetry; apply Babs_Bopp|reflexivity]. Qed.
(* equal, or both zero *)
Definition same0 (x y : fl) : Prop := x = y \/ (zerof x = true /\ zerof y = true).
Lemma same0_prod a a' b b' : opp a a' -> opp b b' -> same0 (Bmult mode_NE a b) (Bmult mode_NE a' b').
Proof.
  intros [->|[-> Z]] [->|[-> Y]].
  - left. rewrite mult_opp, mult_opp_r, Bopp_involutive. reflexivity.
  - destruct b; try discriminate Y. destruct a; try (left; reflexivity); right; split; reflexivity.
  - destruct a; try discriminate Z. destruct b; try (left; reflexivity); right; split; reflexivity.
  - left. reflexivity.
Qed.
Lemma same0_mult r x y : same0 x y -> same0 (Bmult mode_NE r x) (Bmult mode_NE r y).
Proof. intros [->|[X Y]]; [left; reflexivity|]. destruct x; try discriminate X. destruct y; try discriminate Y. destruct r; try (left; reflexivity); right; split; reflexivity. Qed.
(* not negative, as far as the sign bit goes *)
Definition plus_sign (x : fl) : bool := is_nan x || negb (Bsign x).
Lemma sqr_plus x : plus_sign (Bmult mode_NE x x) = true.
Proof.
  destruct x as [s|s| |s m e B]; try (destruct s; reflexivity); try reflexivity. set (x := B754_finite s m e B). pose proof (Bmult_correct prec emax _ _ mode_NE x x) as A. unfold plus_sign.
  destruct (Rlt_bool _ _); [|apply inf_of in A; rewrite A; cbn [is_nan Bsign orb]; destruct (Bsign x); reflexivity]. destruct A as (_ & _ & A). destruct (is_nan (Bmult mode_NE x x)); [reflexivity|]. rewrite (A eq_refl). destruct (Bsign x); reflexivity.
Qed.
Lemma plus_plus x y : plus_sign x = true -> plus_sign y = true -> plus_sign (Bplus mode_NE x y) = true.
Proof.
  intros X Y. destruct (is_finite x) eqn:Fx; [|destruct x as [sx|sx| |], y as [sy|sy| |sy my ey By]; try discriminate Fx; try reflexivity; destruct sx; try destruct sy; try reflexivity; discriminate].
  destruct (is_finite y) eqn:Fy; [|destruct y as [sy|sy| |], x as [sx|sx| |sx mx ex Bx]; try discriminate Fy; try discriminate Fx; try reflexivity; destruct sy; try destruct sx; try reflexivity; discriminate].
  unfold plus_sign in X, Y. replace (is_nan x) with false in X by (destruct x; try discriminate Fx; reflexivity). replace (is_nan y) with false in Y by (destruct y; try discriminate Fy; reflexivity). cbn [orb] in X, Y. apply negb_true_iff in X, Y.
  assert (PX : 0 <= B2R x). { destruct x as [s|s| |s m e B]; cbn [B2R]; try lra. cbn in X. subst s. apply F2R_ge_0. discriminate. } assert (PY : 0 <= B2R y). { destruct y as [s|s| |s m e B]; cbn [B2R]; try lra. cbn in Y. subst s. apply F2R_ge_0. discriminate. }
  pose proof (Bplus_correct prec emax _ _ mode_NE x y Fx Fy) as A. unfold plus_sign. destruct (Rlt_bool _ _).
  - destruct A as (_ & _ & A). rewrite A, X, Y. destruct (Rcompare_spec (B2R x + B2R y) 0); [lra| |]; apply orb_true_r.
  - destruct A as [A _]. apply inf_of in A. rewrite A, X. reflexivity.
Qed.
Lemma same0_add s x y : plus_sign s = true -> same0 x y -> Bplus mode_NE s x = Bplus mode_NE s y.
Proof. intros S [->|[X Y]]; [reflexivity|]. destruct x as [sx| | |]; try discriminate X. destruct y as [sy| | |]; try discriminate Y. destruct s as [t|t| |t m e B]; try reflexivity. destruct t; [discriminate S|]. destruct sx, sy; reflexivity. Qed.
End Opp.
