(* The ALEXA LogC curve in floating point, for a log10 and a powf of bounded error *)
From Coq Require Import Reals ZArith QArith Qreals Lra Lia Bool List.
From Flocq Require Import Core BinarySingleNaN.
From Verif Require Import Outcome RealOps MathModel ColorModel SpaceModel TransformModel XReal FloatInst FloatProofs ErrProofs TransferProofs RelErr CurveProofs PropCurve PropTransfer ConvProofs.
Import ListNotations.
Open Scope R_scope.

(* ---- the curve over the reals ---- *)
Definition lg (z : R) : R := ln z / ln 10.
Notation cut := 0.010591.
Definition eLin (y : R) : R := 5.367655 * y + 0.092809.
Definition eLog (y : R) : R := 0.247190 * lg (5.555556 * y + 0.052272) + 0.385537.
Definition encA (y : R) : R := if Rle_dec y cut then eLin y else eLog y.
Definition dLin (t : R) : R := (t - 0.092809) / 5.367655.
Definition dLog (t : R) : R := (Rpower 10 ((t - 0.385537) / 0.247190) - 0.052272) / 5.555556.
Definition decA (t : R) : R := if Rle_dec t 0.149658 then dLin t else dLog t.
Lemma alexa_x {K : XConst} : (forall y, enc_alexa_t (Fin y) = Fin (encA y)) /\ (forall t, dec_alexa_t (Fin t) = Fin (decA t)).
Proof.
  split; intro y; unfold encA, decA; destruct (Rle_dec y _).
  - apply enc_alexa_lin. assumption. - apply enc_alexa_log. lra. - apply dec_alexa_lin. assumption. - apply dec_alexa_log. lra.
Qed.
Lemma ln10_two : 2 <= ln 10.
Proof. left. rewrite <- (ln_exp 2). apply ln_increasing; [apply exp_pos|]. replace 2 with (1 + 1) by ring. rewrite exp_plus. pose proof exp_le_3. pose proof (exp_pos 1). nra. Qed.
Lemma ln10_three : ln 10 <= 2.5.
Proof.
  left. rewrite <- (ln_exp 2.5). apply ln_increasing; [lra|]. pose proof (exp_ineq1 (/ 8) ltac:(lra)) as H. assert (E : exp 2.5 = exp (/ 8) ^ 20). { rewrite <- Rpower_pow by apply exp_pos. unfold Rpower. rewrite ln_exp. f_equal. rewrite INR_IZR_INZ. cbn. lra. }
  rewrite E. apply Rlt_le_trans with (1.125 ^ 20); [cbn; lra|]. apply pow_incr. lra.
Qed.
Lemma ln_near m z z' : 0 < m -> m <= z -> m <= z' -> Rabs (ln z - ln z') <= Rabs (z - z') / m.
Proof.
  intros M. assert (G : forall a b, m <= b -> b <= a -> ln a - ln b <= (a - b) / m).
  { intros a b B A. assert (E : ln a - ln b = ln (1 + (a - b) / b)). { replace (1 + (a - b) / b) with (a * / b) by (field; lra). rewrite ln_mult, ln_Rinv by (try apply Rinv_0_lt_compat; lra). ring. }
    rewrite E. apply Rle_trans with ((a - b) / b). 2: apply Rmult_le_compat_l; [lra|apply Rinv_le_contravar; lra].
    set (h := (a - b) / b). assert (H : 0 <= h) by (apply Rmult_le_pos; [lra|apply Rlt_le, Rinv_0_lt_compat; lra]). rewrite <- (ln_exp h) at 2. destruct (Rle_lt_or_eq_dec 0 h H) as [P|P]; [left; apply ln_increasing; [lra|apply exp_ineq1; lra]|]. rewrite <- P, exp_0. right. f_equal. ring. }
  intros Z Z'. destruct (Rle_dec z z') as [D|D].
  - pose proof (G z' z Z D). assert (ln z <= ln z') by (destruct (Rle_lt_or_eq_dec _ _ D) as [Q| ->]; [left; apply ln_increasing; lra|right; reflexivity]). rewrite (Rabs_left1 (ln z - ln z')), (Rabs_left1 (z - z')) by lra. unfold Rdiv in *. lra.
  - apply Rnot_le_lt in D. pose proof (G z z' Z' ltac:(lra)). assert (ln z' < ln z) by (apply ln_increasing; lra). rewrite (Rabs_pos_eq (ln z - ln z')), (Rabs_pos_eq (z - z')) by lra. assumption.
Qed.
Lemma lg_near m z z' : 0 < m -> m <= z -> m <= z' -> Rabs (lg z - lg z') <= Rabs (z - z') / m / 2.
Proof.
  intros M A B. pose proof (ln_near m z z' M A B) as H. pose proof ln10_two as T. unfold lg. replace (ln z / ln 10 - ln z' / ln 10) with ((ln z - ln z') * / ln 10) by (field; lra). rewrite Rabs_mult, (Rabs_pos_eq (/ ln 10)) by (apply Rlt_le, Rinv_0_lt_compat; lra).
  apply Rmult_le_compat; [apply Rabs_pos|apply Rlt_le, Rinv_0_lt_compat; lra|exact H|apply Rinv_le_contravar; lra].
Qed.
Lemma eLog_near p q : 0.01059 <= p -> 0.01059 <= q -> Rabs (eLog p - eLog q) <= 6.2 * Rabs (p - q).
Proof.
  intros P Q. pose proof (lg_near 0.1111 (5.555556 * p + 0.052272) (5.555556 * q + 0.052272) ltac:(lra) ltac:(lra) ltac:(lra)) as H.
  unfold eLog. replace (5.555556 * p + 0.052272 - (5.555556 * q + 0.052272)) with (5.555556 * (p - q)) in H by ring. rewrite Rabs_mult, (Rabs_pos_eq 5.555556) in H by lra.
  replace (0.247190 * lg (5.555556 * p + 0.052272) + 0.385537 - (0.247190 * lg (5.555556 * q + 0.052272) + 0.385537)) with (0.247190 * (lg (5.555556 * p + 0.052272) - lg (5.555556 * q + 0.052272))) by ring. rewrite Rabs_mult, (Rabs_pos_eq 0.247190) by lra. pose proof (Rabs_pos (p - q)). lra.
Qed.
Lemma eLin_near p q : Rabs (eLin p - eLin q) <= 5.4 * Rabs (p - q).
Proof. unfold eLin. replace (5.367655 * p + 0.092809 - (5.367655 * q + 0.092809)) with (5.367655 * (p - q)) by ring. rewrite Rabs_mult, (Rabs_pos_eq 5.367655) by lra. pose proof (Rabs_pos (p - q)). lra. Qed.
(* 9^153 < 10^146 *)
Lemma lg9 : ln 9 <= 146 / 153 * ln 10.
Proof.
  assert (H : ln (9 ^ 153) <= ln (10 ^ 146)). { left. apply ln_increasing; [apply pow_lt; lra|]. rewrite !pow_IZR. apply IZR_lt. vm_compute. reflexivity. }
  rewrite !ln_pow in H by lra. rewrite !INR_IZR_INZ in H. change (IZR (Z.of_nat 153)) with 153 in H. change (IZR (Z.of_nat 146)) with 146 in H. lra.
Qed.
Lemma jump : Rabs (eLog cut - eLin cut) <= 2e-6.
Proof.
  pose proof alexa_jump as J. pose proof lg9 as N. pose proof ln10_two as T. pose proof ln10_three as T3.
  assert (U : eLog cut <= eLog 0.01059102). { unfold eLog, lg. assert (ln (5.555556 * cut + 0.052272) <= ln (5.555556 * 0.01059102 + 0.052272)) by (left; apply ln_increasing; lra). assert (ln (5.555556 * cut + 0.052272) / ln 10 <= ln (5.555556 * 0.01059102 + 0.052272) / ln 10) by (apply Rmult_le_compat_r; [apply Rlt_le, Rinv_0_lt_compat; lra|assumption]). lra. }
  assert (L : - (146 / 153) - 2e-6 <= lg (5.555556 * cut + 0.052272)).
  { assert (A : Rabs (lg (5.555556 * cut + 0.052272) - lg (/ 9)) <= 2e-6). { eapply Rle_trans; [apply (lg_near 0.1111); lra|]. replace (5.555556 * cut + 0.052272 - / 9) with (- (/ 9 - (5.555556 * cut + 0.052272))) by ring. rewrite Rabs_Ropp, Rabs_pos_eq by lra. lra. }
    assert (B : - (146 / 153) <= lg (/ 9)). { unfold lg. rewrite ln_Rinv by lra. apply (Rmult_le_reg_r (ln 10)); [lra|]. replace (- ln 9 / ln 10 * ln 10) with (- ln 9) by (field; lra). lra. }
    apply Rabs_le_inv in A. lra. }
  assert (eLog 0.01059102 < 0.149657834105) by exact J. unfold eLin. unfold eLog in *. apply Rabs_le. lra.
Qed.
Lemma cross p q : 0.01059 <= q -> Rabs (eLin p - eLog q) <= 6.2 * (Rabs (p - cut) + Rabs (q - cut)) + 2e-6.
Proof.
  intro Q. pose proof (eLin_near p cut) as A. pose proof (eLog_near q cut Q ltac:(lra)) as B. pose proof jump as J. pose proof (Rabs_pos (p - cut)).
  replace (eLin p - eLog q) with ((eLin p - eLin cut) + - (eLog q - eLog cut) + - (eLog cut - eLin cut)) by ring. eapply Rle_trans; [apply Rabs_triang|]. rewrite Rabs_Ropp. eapply Rle_trans; [apply Rplus_le_compat_r, Rabs_triang|]. rewrite Rabs_Ropp. lra.
Qed.
Lemma dLog_arg t : 5.555556 * dLog t + 0.052272 = Rpower 10 ((t - 0.385537) / 0.247190).
Proof. unfold dLog. set (p := Rpower _ _). lra. Qed.
Lemma dLog_eLog t : eLog (dLog t) = t.
Proof.
  pose proof ln10_two. unfold eLog. rewrite dLog_arg. unfold lg, Rpower. rewrite ln_exp. replace ((t - 0.385537) / 0.247190 * ln 10 / ln 10) with ((t - 0.385537) / 0.247190) by (field; lra). lra.
Qed.
Lemma dLin_eLin t : eLin (dLin t) = t. Proof. unfold eLin, dLin. lra. Qed.

Section Fmt.
Context (prec emax : Z) {Hp : Prec_gt_0 prec} {He : Prec_lt_emax prec emax}.
Notation fl := (binary_float prec emax).
Notation u := (bpow radix2 (- prec)).
Notation eta := (bpow radix2 (2 - emax - prec)).
Notation tiny := (bpow radix2 (2 - emax)).
Notation rnd := (round radix2 (SpecFloat.fexp prec emax) ZnearestE).
Context (P5 : (24 <= prec)%Z) (E5 : (128 <= emax)%Z).

(* log10 within 12 u between 1/10 and 1000, 10^y within 4 half-units in the last place for y in [-1, 3] *)
Definition log10_ok (lf : fl -> fl) : Prop := forall x, is_finite x = true -> 0.1 <= B2R x <= 1000 -> is_finite (lf x) = true /\ Rabs (B2R (lf x) - lg (B2R x)) <= 12 * u.
Definition powf_ten (pw : fl -> fl -> fl) : Prop := forall x y, is_finite x = true -> is_finite y = true -> B2R x = 10 -> -1 <= B2R y <= 3 -> is_finite (pw x y) = true /\ rel (4 * u) (B2R (pw x y)) (Rpower 10 (B2R y)).

Lemma small_rnd x : Rabs x <= 1000 -> Rabs (rnd x) < bpow radix2 emax.
Proof.
  intro H. destruct (CurveProofs.u24 prec P5) as [U0 U]. destruct (CurveProofs.eta_le prec emax E5) as [T0 T]. pose proof (CurveProofs.huge emax E5) as G. pose proof (rnd_any prec emax x) as R.
  assert (u * Rabs x <= / 10000000 * 1000) by (apply Rmult_le_compat; try apply Rabs_pos; lra). replace (rnd x) with (x + (rnd x - x)) by ring. eapply Rle_lt_trans; [apply Rabs_triang|]. lra.
Qed.
Lemma amul (x y : fl) : is_finite x = true -> is_finite y = true -> Rabs (B2R x * B2R y) <= 1000 -> is_finite (Bmult mode_NE x y) = true /\ Rabs (B2R (Bmult mode_NE x y) - B2R x * B2R y) <= u * Rabs (B2R x * B2R y) + eta.
Proof. intros X Y H. assert (F : is_finite (Bmult mode_NE x y) = true) by (apply mult_small; try assumption; exact (small_rnd _ H)). split; [exact F|]. apply mult_fin in F. destruct F as (_ & _ & E). rewrite E. exact (rnd_any prec emax _). Qed.
Lemma aplus (x y : fl) : is_finite x = true -> is_finite y = true -> Rabs (B2R x + B2R y) <= 1000 -> is_finite (Bplus mode_NE x y) = true /\ Rabs (B2R (Bplus mode_NE x y) - (B2R x + B2R y)) <= u * Rabs (B2R x + B2R y).
Proof. intros X Y H. assert (F : is_finite (Bplus mode_NE x y) = true) by (apply plus_small; try assumption; exact (small_rnd _ H)). split; [exact F|]. apply plus_fin in F. destruct F as (_ & _ & E). rewrite E. exact (rnd_sum prec emax _ _). Qed.
Lemma adiv (x y : fl) : is_finite x = true -> B2R y <> 0 -> Rabs (B2R x / B2R y) <= 1000 -> is_finite (Bdiv mode_NE x y) = true /\ Rabs (B2R (Bdiv mode_NE x y) - B2R x / B2R y) <= u * Rabs (B2R x / B2R y) + eta.
Proof. intros X Y H. destruct (fdiv prec emax x y X Y (small_rnd _ H)) as [F E]. split; [exact F|]. rewrite E. exact (rnd_any prec emax _). Qed.
(* a product with a known bound on the second factor *)
Lemma times a x b c : 0 <= a -> Rabs x <= b -> a * b <= c -> a * Rabs x <= c.
Proof. intros A B C. eapply Rle_trans; [|exact C]. apply Rmult_le_compat_l; assumption. Qed.

Context (L : libm fl) (lit : Q -> fl) (LO : lit_ok prec emax lit) (TEN : is_finite (lit 10.0%Q) = true /\ B2R (lit 10.0%Q) = 10) (LG : log10_ok (l_log10 L)) (PT : powf_ten (l_powf L)).
Notation ops := (b_ops prec emax L lit).
Notation fa := (lit 5.555556%Q). Notation fb := (lit 0.052272%Q). Notation fc := (lit 0.247190%Q). Notation fd := (lit 0.385537%Q). Notation fe := (lit 5.367655%Q). Notation ff := (lit 0.092809%Q).
Notation fcut := (lit 0.010591%Q). Notation fecf := (lit 0.149658%Q).
Lemma lits : (is_finite fa = true /\ rel (1.01 * u) (B2R fa) 5.555556) /\ (is_finite fb = true /\ rel (1.01 * u) (B2R fb) 0.052272) /\ (is_finite fc = true /\ rel (1.01 * u) (B2R fc) 0.247190) /\ (is_finite fd = true /\ rel (1.01 * u) (B2R fd) 0.385537)
  /\ (is_finite fe = true /\ rel (1.01 * u) (B2R fe) 5.367655) /\ (is_finite ff = true /\ rel (1.01 * u) (B2R ff) 0.092809) /\ (is_finite fcut = true /\ rel (1.01 * u) (B2R fcut) cut) /\ (is_finite fecf = true /\ rel (1.01 * u) (B2R fecf) 0.149658).
Proof. repeat (apply conj; [apply (l_pos prec emax lit LO _ _ eq_refl); lra|]). apply (l_pos prec emax lit LO _ _ eq_refl); lra. Qed.
Lemma lg_range z : 0.1 <= z <= 1000 -> -1 <= lg z <= 3.
Proof.
  intro H. pose proof ln10_two as T. assert (M : forall a b, 0 < a -> a <= b -> ln a <= ln b) by (intros a b A B; destruct (Rle_lt_or_eq_dec a b B) as [D| ->]; [left; apply ln_increasing; assumption|right; reflexivity]).
  assert (A : - ln 10 <= ln z). { rewrite <- ln_Rinv by lra. apply M; lra. } assert (B : ln z <= 3 * ln 10). { replace (3 * ln 10) with (ln (10 ^ 3)) by (rewrite ln_pow by lra; cbn; ring). apply M; lra. }
  unfold lg. split; apply (Rmult_le_reg_r (ln 10)); try lra; replace (ln z / ln 10 * ln 10) with (ln z) by (field; lra); lra.
Qed.
(* the logarithmic segment from its argument on *)
Lemma log_tail (zf : fl) z r : is_finite zf = true -> 0.11 <= z <= 400 -> 0 <= r <= 0.001 -> rel r (B2R zf) z -> let x := Bplus mode_NE (Bmult mode_NE fc (l_log10 L zf)) fd in is_finite x = true /\ Rabs (B2R x - (0.247190 * lg z + 0.385537)) <= 0.13 * r + 7 * u.
Proof.
  intros F Z Rr R x. destruct (CurveProofs.u24 prec P5) as [U0 U]. destruct (CurveProofs.eta_le prec emax E5) as [T0 T]. destruct lits as (_ & _ & (Fc & Rc) & (Fd & Rd) & _).
  pose proof (rel_bounds _ _ _ R) as B. assert (Bz : 0.1 <= B2R zf <= 1000) by nra. destruct (LG zf F Bz) as [Fl El]. pose proof (lg_range (B2R zf) Bz) as Gz.
  assert (M : Rabs (lg (B2R zf) - lg z) <= 0.51 * r).
  { eapply Rle_trans; [apply (lg_near ((1 - r) * z)); nra|]. apply Rle_trans with (r * z / ((1 - r) * z) / 2). { unfold Rdiv. apply Rmult_le_compat_r; [lra|]. apply Rmult_le_compat_r; [apply Rlt_le, Rinv_0_lt_compat; nra|exact R]. }
    replace (r * z / ((1 - r) * z) / 2) with (r * (/ (1 - r) / 2)) by (field; lra). rewrite (Rmult_comm 0.51). apply Rmult_le_compat_l; [lra|]. assert (/ (1 - r) <= / 0.99) by (apply Rinv_le_contravar; lra). lra. }
  set (l := l_log10 L zf) in *. assert (Bl : Rabs (B2R l) <= 3.01) by (apply Rabs_le_inv in El; apply Rabs_le; lra). pose proof (rel_bounds _ _ _ Rc) as Bc. unfold rel in Rc, Rd.
  assert (Pc : Rabs (B2R fc * B2R l - 0.247190 * lg z) <= 0.128 * r + 3.8 * u).
  { replace (B2R fc * B2R l - 0.247190 * lg z) with ((B2R fc - 0.247190) * B2R l + 0.247190 * ((B2R l - lg (B2R zf)) + (lg (B2R zf) - lg z))) by ring. eapply Rle_trans; [apply Rabs_triang|]. rewrite !Rabs_mult, (Rabs_pos_eq 0.247190) by lra.
    assert (Rabs (B2R fc - 0.247190) * Rabs (B2R l) <= 1.01 * u * 0.247190 * 3.01) by (apply Rmult_le_compat; try apply Rabs_pos; lra). pose proof (Rabs_triang (B2R l - lg (B2R zf)) (lg (B2R zf) - lg z)). lra. }
  assert (P1 : Rabs (B2R fc * B2R l) <= 0.75). { rewrite Rabs_mult, (Rabs_pos_eq (B2R fc)) by lra. apply Rle_trans with (0.2475 * 3.01); [apply Rmult_le_compat; try apply Rabs_pos; lra|lra]. }
  destruct (amul fc l Fc Fl ltac:(lra)) as [Fm Em]. pose proof (times u _ _ (0.75 * u) ltac:(lra) P1 ltac:(lra)) as Tm. set (m := Bmult mode_NE fc l) in *.
  assert (P2 : Rabs (B2R m + B2R fd) <= 1.2) by (apply Rabs_le_inv in Em, P1, Rd; apply Rabs_le; lra). destruct (aplus m fd Fm Fd ltac:(lra)) as [Fx Ex]. pose proof (times u _ _ (1.2 * u) ltac:(lra) P2 ltac:(lra)) as Tx. fold x in Fx, Ex. split; [exact Fx|].
  apply Rabs_le_inv in Ex, Em, Rd, Pc. apply Rabs_le. lra.
Qed.
Lemma enc_cases (v : fl) : is_finite v = true -> (B2R v <= B2R fcut /\ @enc_alexa_t _ ops v = Bplus mode_NE (Bmult mode_NE fe v) ff) \/ (B2R fcut <= B2R v /\ @enc_alexa_t _ ops v = Bplus mode_NE (Bmult mode_NE fc (l_log10 L (Bplus mode_NE (Bmult mode_NE fa v) fb))) fd).
Proof.
  intro F. destruct lits as (_ & _ & _ & _ & _ & _ & (F0 & _) & _). unfold enc_alexa_t. cbv zeta. cbn [rlt rlit radd rmul rlog10 b_ops]. destruct (lt_cases prec emax fcut v F0 F) as [[-> C]|[-> C]]; [right|left]; (split; [exact C|reflexivity]).
Qed.
Lemma lin_round (v : fl) : is_finite v = true -> Rabs (B2R v) <= 6 -> is_finite (Bplus mode_NE (Bmult mode_NE fe v) ff) = true /\ Rabs (B2R (Bplus mode_NE (Bmult mode_NE fe v) ff) - eLin (B2R v)) <= (17 * Rabs (B2R v) + 0.3) * u.
Proof.
  intros F V. destruct (CurveProofs.u24 prec P5) as [U0 U]. destruct (CurveProofs.eta_le prec emax E5) as [T0 T]. destruct lits as (_ & _ & _ & _ & (Fe & Re) & (Ff & Rf) & _). unfold rel in Re, Rf. pose proof (Rabs_pos (B2R v)) as V0.
  assert (E1 : Rabs (B2R fe * B2R v - 5.367655 * B2R v) <= 5.5 * (u * Rabs (B2R v))). { replace (B2R fe * B2R v - 5.367655 * B2R v) with ((B2R fe - 5.367655) * B2R v) by ring. rewrite Rabs_mult. apply Rle_trans with (1.01 * u * 5.367655 * Rabs (B2R v)); [apply Rmult_le_compat_r; lra|]. assert (0 <= u * Rabs (B2R v)) by (apply Rmult_le_pos; lra). lra. }
  assert (UV : 0 <= u * Rabs (B2R v) <= 0.000001 * Rabs (B2R v)) by (split; [apply Rmult_le_pos; lra|apply Rmult_le_compat_r; lra]).
  assert (E2 : Rabs (B2R fe * B2R v) <= 5.4 * Rabs (B2R v)). { rewrite Rabs_mult. apply Rmult_le_compat_r; [lra|]. apply Rabs_le_inv in Re. apply Rabs_le. lra. }
  destruct (amul fe v Fe F ltac:(lra)) as [Fm Em]. pose proof (times u _ _ _ ltac:(lra) E2 (Rle_refl _)) as Tm. set (m := Bmult mode_NE fe v) in *.
  assert (E3 : Rabs (B2R m + B2R ff) <= 5.41 * Rabs (B2R v) + 0.093).
  { eapply Rle_trans; [apply Rabs_triang|]. assert (Rabs (B2R m) <= 5.41 * Rabs (B2R v) + 0.0001). { replace (B2R m) with (B2R fe * B2R v + (B2R m - B2R fe * B2R v)) by ring. eapply Rle_trans; [apply Rabs_triang|]. lra. } assert (Rabs (B2R ff) <= 0.09281) by (apply Rabs_le_inv in Rf; apply Rabs_le; lra). lra. }
  destruct (aplus m ff Fm Ff ltac:(lra)) as [Fx Ex]. pose proof (times u _ _ _ ltac:(lra) E3 (Rle_refl _)) as Tx. split; [exact Fx|]. unfold eLin. set (q := u * Rabs (B2R v)) in *. replace ((17 * Rabs (B2R v) + 0.3) * u) with (17 * q + 0.3 * u) by (unfold q; ring). replace (u * (5.4 * Rabs (B2R v))) with (5.4 * q) in Tm by (unfold q; ring). replace (u * (5.41 * Rabs (B2R v) + 0.093)) with (5.41 * q + 0.093 * u) in Tx by (unfold q; ring).
  apply Rabs_le_inv in Ex, Em, E1, Rf. apply Rabs_le. lra.
Qed.
(* the argument of the logarithm *)
Lemma arg_round (v : fl) : is_finite v = true -> 0.0105 <= B2R v <= 60 -> let z := Bplus mode_NE (Bmult mode_NE fa v) fb in is_finite z = true /\ rel (3.1 * u) (B2R z) (5.555556 * B2R v + 0.052272).
Proof.
  intros F V z. destruct (CurveProofs.u24 prec P5) as [U0 U]. pose proof (CurveProofs.tiny_le emax E5) as [T0 T]. destruct lits as ((Fa & Ra) & (Fb & Rb) & _). pose proof (rel_bounds _ _ _ Ra) as Ba. pose proof (rel_bounds _ _ _ Rb) as Bb.
  assert (A1 : 0.05 <= B2R fa * B2R v <= 340) by nra. destruct (fmul prec emax P5 E5 fa v Fa F ltac:(lra)) as [Fm Em]. set (m := Bmult mode_NE fa v) in *.
  assert (R1 : rel (1.01 * u) (B2R fa * B2R v) (5.555556 * B2R v)). { unfold rel in *. replace (B2R fa * B2R v - 5.555556 * B2R v) with ((B2R fa - 5.555556) * B2R v) by ring. rewrite Rabs_mult, (Rabs_pos_eq (B2R v)) by lra. rewrite <- Rmult_assoc. apply Rmult_le_compat_r; lra. }
  pose proof (rel_trans _ _ _ _ _ Em R1 ltac:(lra) ltac:(lra) ltac:(lra)) as R2. assert (Rb' : rel (u + 1.01 * (1.01 * u)) (B2R fb) 0.052272) by (eapply rel_weaken; [exact Rb|lra|lra]). pose proof (rel_plus _ _ _ _ _ R2 Rb') as R3. pose proof (rel_bounds _ _ _ R3) as B3.
  destruct (fplus prec emax P5 E5 m fb Fm Fb ltac:(nra)) as [Fz Ez]. fold z in Fz, Ez. split; [exact Fz|]. pose proof (rel_trans _ _ _ _ _ Ez R3 ltac:(lra) ltac:(lra) ltac:(lra)) as R4. eapply rel_weaken; [exact R4|lra|lra].
Qed.
Lemma cut_near : Rabs (B2R fcut - cut) <= 0.02 * u.
Proof. destruct lits as (_ & _ & _ & _ & _ & _ & (_ & H) & _). unfold rel in H. destruct (CurveProofs.u24 prec P5). lra. Qed.
(* the encoder against the exact curve *)
Lemma enc_close (v : fl) y D : is_finite v = true -> Rabs y <= 5 -> 0 <= D <= 0.001 -> Rabs (B2R v - y) <= D -> is_finite (@enc_alexa_t _ ops v) = true /\ Rabs (B2R (@enc_alexa_t _ ops v) - encA y) <= 6.2 * D + 2e-6 + 103 * u.
Proof.
  intros F Y HD H. destruct (CurveProofs.u24 prec P5) as [U0 U]. pose proof cut_near as CN. apply Rabs_le_inv in CN. pose proof (Rabs_le_inv _ _ H) as H'. pose proof (Rabs_le_inv _ _ Y) as Y'. assert (V : Rabs (B2R v) <= 6) by (apply Rabs_le; lra).
  assert (ADD : forall a b c e1 e2, Rabs (a - b) <= e1 -> Rabs (b - c) <= e2 -> e1 + e2 <= 6.2 * D + 2e-6 + 103 * u -> Rabs (a - c) <= 6.2 * D + 2e-6 + 103 * u). { intros a b c e1 e2 A B C. apply Rabs_le_inv in A, B. apply Rabs_le. lra. }
  destruct (enc_cases v F) as [[C ->]|[C ->]].
  - destruct (lin_round v F V) as [G E]. split; [exact G|]. assert (E' : (17 * Rabs (B2R v) + 0.3) * u <= 102.5 * u) by (apply Rmult_le_compat_r; lra). unfold encA. destruct (Rle_dec y cut) as [D1|D1].
    + apply (ADD _ _ _ _ _ E (eLin_near (B2R v) y)). assert (5.4 * Rabs (B2R v - y) <= 6.2 * D) by (pose proof (Rabs_pos (B2R v - y)); lra). lra.
    + apply (ADD _ _ _ _ _ E (cross (B2R v) y ltac:(lra))). rewrite (Rabs_pos_eq (y - cut)) by lra. assert (Rabs (B2R v - cut) <= D - (y - cut) + 0.04 * u) by (apply Rabs_le; lra). lra.
  - destruct (arg_round v F ltac:(lra)) as [Gz Ez]. destruct (log_tail _ (5.555556 * B2R v + 0.052272) (3.1 * u) Gz ltac:(lra) ltac:(lra) Ez) as [G E]. split; [exact G|]. change (0.247190 * lg (5.555556 * B2R v + 0.052272) + 0.385537) with (eLog (B2R v)) in E. unfold encA. destruct (Rle_dec y cut) as [D1|D1].
    + pose proof (cross y (B2R v) ltac:(lra)) as X. rewrite <- (Rabs_Ropp (eLin y - eLog (B2R v))) in X. replace (- (eLin y - eLog (B2R v))) with (eLog (B2R v) - eLin y) in X by ring. apply (ADD _ _ _ _ _ E X).
      rewrite (Rabs_left1 (y - cut)) by lra. assert (Rabs (B2R v - cut) <= D + (y - cut) + 0.04 * u) by (apply Rabs_le; lra). lra.
    + apply (ADD _ _ _ _ _ E (eLog_near (B2R v) y ltac:(lra) ltac:(lra))). lra.
Qed.
Lemma dec_cases (x : fl) : is_finite x = true -> (B2R x <= B2R fecf /\ @dec_alexa_t _ ops x = Bdiv mode_NE (Bminus mode_NE x ff) fe) \/ (B2R fecf <= B2R x /\ @dec_alexa_t _ ops x = Bdiv mode_NE (Bminus mode_NE (l_powf L (lit 10.0%Q) (Bdiv mode_NE (Bminus mode_NE x fd) fc)) fb) fa).
Proof.
  intro F. destruct lits as (_ & _ & _ & _ & _ & _ & _ & (F0 & _)). unfold dec_alexa_t. cbv zeta. cbn [rlt rlit rsub rdiv rpowf b_ops]. destruct (lt_cases prec emax fecf x F0 F) as [[-> C]|[-> C]]; [right|left]; (split; [exact C|reflexivity]).
Qed.
Lemma ecf_near : Rabs (B2R fecf - 0.149658) <= 0.16 * u.
Proof. destruct lits as (_ & _ & _ & _ & _ & _ & _ & (_ & H)). unfold rel in H. destruct (CurveProofs.u24 prec P5). lra. Qed.
(* a quotient by a literal *)
Lemma over (m k : fl) M K q : is_finite m = true -> 0 < K -> rel (1.01 * u) (B2R k) K -> Rabs (B2R m - M) <= q -> Rabs (B2R m) / K <= 900 -> is_finite (Bdiv mode_NE m k) = true /\ Rabs (B2R (Bdiv mode_NE m k) - M / K) <= q / K + 2.1 * u * (Rabs (B2R m) / K) + eta.
Proof.
  intros F K0 R H B. destruct (CurveProofs.u24 prec P5) as [U0 U]. pose proof (rel_pos (1.01 * u) _ _ ltac:(lra) K0 R) as K1. pose proof (rel_inv (1.01 * u) _ _ ltac:(lra) K0 R) as RI. unfold rel in RI. assert (IK : 0 < / K) by (apply Rinv_0_lt_compat, K0). assert (IF : 0 < / B2R k) by (apply Rinv_0_lt_compat, K1).
  pose proof (Rabs_pos (B2R m)) as M0. set (w := Rabs (B2R m) / K) in *. assert (W0 : 0 <= w) by (apply Rmult_le_pos; lra). assert (UW : 0 <= u * w) by (apply Rmult_le_pos; lra).
  assert (E1 : Rabs (B2R m / B2R k - B2R m / K) <= 1.03 * (u * w)). { unfold Rdiv. replace (B2R m * / B2R k - B2R m * / K) with (B2R m * (/ B2R k - / K)) by ring. rewrite Rabs_mult. apply Rle_trans with (Rabs (B2R m) * (1.01 * (1.01 * u) * / K)); [apply Rmult_le_compat_l; [lra|exact RI]|]. replace (Rabs (B2R m) * (1.01 * (1.01 * u) * / K)) with (1.0201 * (u * w)) by (unfold w; lra). lra. }
  assert (E2 : Rabs (B2R m / K) = w). { unfold w, Rdiv. rewrite Rabs_mult, (Rabs_pos_eq (/ K)) by lra. reflexivity. }
  assert (E3 : Rabs (B2R m / B2R k) <= 1.01 * w). { replace (B2R m / B2R k) with ((B2R m / B2R k - B2R m / K) + B2R m / K) by ring. eapply Rle_trans; [apply Rabs_triang|]. assert (u * w <= / 10000000 * w) by (apply Rmult_le_compat_r; lra). lra. }
  destruct (adiv m k F ltac:(lra) ltac:(lra)) as [G E]. split; [exact G|]. pose proof (times u _ _ _ ltac:(lra) E3 (Rle_refl _)) as E4.
  assert (E5' : Rabs (B2R m / K - M / K) <= q / K). { replace (B2R m / K - M / K) with ((B2R m - M) * / K) by (unfold Rdiv; ring). rewrite Rabs_mult, (Rabs_pos_eq (/ K)) by lra. apply Rmult_le_compat_r; lra. }
  replace (u * (1.01 * w)) with (1.01 * (u * w)) in E4 by ring. replace (2.1 * u * w) with (2.1 * (u * w)) by ring. apply Rabs_le_inv in E, E1, E5'. apply Rabs_le. lra.
Qed.
Lemma dec_lin_round (x : fl) t : is_finite x = true -> 0 <= t <= 1 -> Rabs (B2R x - t) <= u -> B2R x <= B2R fecf -> is_finite (Bdiv mode_NE (Bminus mode_NE x ff) fe) = true /\ Rabs (B2R (Bdiv mode_NE (Bminus mode_NE x ff) fe) - dLin t) <= 0.4 * u.
Proof.
  intros F Ht H C. destruct (CurveProofs.u24 prec P5) as [U0 U]. destruct (CurveProofs.eta_le prec emax E5) as [T0 T]. destruct lits as (_ & _ & _ & _ & (Fe & Re) & (Ff & Rf) & _). unfold rel in Rf. pose proof ecf_near as EN. apply Rabs_le_inv in H, EN, Rf.
  assert (A : Rabs (B2R x - B2R ff) <= 0.1) by (apply Rabs_le; lra). destruct (fminus prec emax P5 E5 x ff F Ff ltac:(lra)) as [Fm Em]. pose proof (times u _ _ (0.1 * u) ltac:(lra) A ltac:(lra)) as Tm. set (m := Bminus mode_NE x ff) in *.
  assert (Q : Rabs (B2R m - (t - 0.092809)) <= 1.2 * u) by (apply Rabs_le_inv in Em; apply Rabs_le; lra). assert (B : Rabs (B2R m) <= 0.11) by (apply Rabs_le_inv in Em, A; apply Rabs_le; lra).
  destruct (over m fe (t - 0.092809) 5.367655 (1.2 * u) Fm ltac:(lra) Re Q ltac:(lra)) as [G E]. split; [exact G|]. unfold dLin. eapply Rle_trans; [exact E|]. pose proof (times u _ _ (0.11 * u) ltac:(lra) B ltac:(lra)) as TB. lra.
Qed.
Lemma dec_log_round (x : fl) t : is_finite x = true -> 0 <= t <= 1 -> Rabs (B2R x - t) <= u -> B2R fecf <= B2R x -> let v := Bdiv mode_NE (Bminus mode_NE (l_powf L (lit 10.0%Q) (Bdiv mode_NE (Bminus mode_NE x fd) fc)) fb) fa in
  is_finite v = true /\ rel (44 * u) (5.555556 * B2R v + 0.052272) (Rpower 10 ((t - 0.385537) / 0.247190)) /\ 1 / 9 < Rpower 10 ((t - 0.385537) / 0.247190) <= 320.
Proof.
  intros F Ht H C v. destruct (CurveProofs.u24 prec P5) as [U0 U]. destruct (CurveProofs.eta_le prec emax E5) as [T0 T]. destruct lits as ((Fa & Ra) & (Fb & Rb) & (Fc & Rc) & (Fd & Rd) & _). unfold rel in Rb, Rd. pose proof ecf_near as EN. apply Rabs_le_inv in H, EN, Rb, Rd. destruct TEN as [F10 V10].
  assert (t0 : 0.14965785 <= t) by lra. pose proof (alexa_ninth t ltac:(lra)) as P9. set (s0 := (t - 0.385537) / 0.247190) in *. assert (S0 : -0.955 <= s0 <= 2.5) by (unfold s0; lra).
  assert (P3 : Rpower 10 s0 <= 320). { apply Rle_trans with (Rpower 10 (5 / 2)); [apply Rle_Rpower; lra|]. left. apply (gt_frac_power _ _ 5 2); [lra|lra|cbn; lra|lia|lra]. } set (p := Rpower 10 s0) in *.
  assert (A : Rabs (B2R x - B2R fd) <= 0.62) by (apply Rabs_le; lra). destruct (fminus prec emax P5 E5 x fd F Fd ltac:(lra)) as [Fm Em]. pose proof (times u _ _ (0.62 * u) ltac:(lra) A ltac:(lra)) as Tm. set (m := Bminus mode_NE x fd) in *.
  assert (Q : Rabs (B2R m - (t - 0.385537)) <= 2.1 * u) by (apply Rabs_le_inv in Em; apply Rabs_le; lra). assert (B : Rabs (B2R m) <= 0.63) by (apply Rabs_le_inv in Em, A; apply Rabs_le; lra).
  destruct (over m fc (t - 0.385537) 0.247190 (2.1 * u) Fm ltac:(lra) Rc Q ltac:(lra)) as [Gs Es]. fold s0 in Es. pose proof (times u _ _ (0.63 * u) ltac:(lra) B ltac:(lra)) as TB. assert (Es' : Rabs (B2R (Bdiv mode_NE m fc) - s0) <= 14 * u) by (eapply Rle_trans; [exact Es|]; lra). clear Es. set (s := Bdiv mode_NE m fc) in *.
  pose proof (Rabs_le_inv _ _ Es') as Bs. destruct (PT (lit 10.0%Q) s F10 Gs V10 ltac:(lra)) as [Fp Ep]. pose proof ln10_two as L2. pose proof ln10_three as L3.
  pose proof (rel_exponent (14 * u) 2.5 s0 (B2R s) 10 Es' ltac:(rewrite Rabs_pos_eq; lra) ltac:(lra)) as EX. fold p in EX. pose proof (rel_trans _ _ _ _ _ Ep EX ltac:(lra) ltac:(lra) ltac:(lra)) as RP. assert (RP' : rel (40 * u) (B2R (l_powf L (lit 10.0%Q) s)) p) by (eapply rel_weaken; [exact RP|lra|lra]). clear RP EX Ep. set (pf := l_powf L (lit 10.0%Q) s) in *.
  assert (UP : u / 9 <= u * p <= 0.00001 * p). { split; [unfold Rdiv; apply Rmult_le_compat_l; lra|apply Rmult_le_compat_r; lra]. } unfold rel in RP'. replace (40 * u * p) with (40 * (u * p)) in RP' by ring. apply Rabs_le_inv in RP'. set (up := u * p) in *.
  assert (A2 : 0 <= B2R pf - B2R fb <= 1.001 * p) by lra. destruct (fminus prec emax P5 E5 pf fb Fp Fb ltac:(rewrite Rabs_pos_eq; lra)) as [Fm2 Em2]. rewrite (Rabs_pos_eq (B2R pf - B2R fb)) in Em2 by lra. set (m2 := Bminus mode_NE pf fb) in *.
  assert (T2 : u * (B2R pf - B2R fb) <= 1.001 * up). { apply Rle_trans with (u * (1.001 * p)); [apply Rmult_le_compat_l; lra|unfold up; lra]. }
  assert (Q2 : Rabs (B2R m2 - (p - 0.052272)) <= 41.6 * up) by (apply Rabs_le_inv in Em2; apply Rabs_le; lra). assert (B2 : 0 <= B2R m2 <= 1.002 * p). { pose proof (Rabs_le_inv _ _ Q2). lra. }
  destruct (over m2 fa (p - 0.052272) 5.555556 (41.6 * up) Fm2 ltac:(lra) Ra Q2 ltac:(rewrite Rabs_pos_eq; lra)) as [G E]. fold v in G, E. split; [exact G|]. split; [|lra]. rewrite (Rabs_pos_eq (B2R m2)) in E by lra.
  assert (T3 : u * B2R m2 <= 1.002 * up). { apply Rle_trans with (u * (1.002 * p)); [apply Rmult_le_compat_l; lra|unfold up; lra]. }
  unfold rel. replace (44 * u * p) with (44 * up) by (unfold up; ring). apply Rabs_le_inv in E. apply Rabs_le. lra.
Qed.
(* a code decoded and encoded again *)
Lemma code_trip (x : fl) t : is_finite x = true -> 0 <= t <= 1 -> Rabs (B2R x - t) <= u -> is_finite (@enc_alexa_t _ ops (@dec_alexa_t _ ops x)) = true /\ Rabs (B2R (@enc_alexa_t _ ops (@dec_alexa_t _ ops x)) - t) <= 21 * u + 2.5e-6.
Proof.
  intros F Ht H. destruct (CurveProofs.u24 prec P5) as [U0 U]. pose proof cut_near as CN. apply Rabs_le_inv in CN. pose proof ecf_near as EN. apply Rabs_le_inv in EN. pose proof (Rabs_le_inv _ _ H) as H'.
  assert (ADD : forall a b c e1 e2, Rabs (a - b) <= e1 -> Rabs (b - c) <= e2 -> e1 + e2 <= 21 * u + 2.5e-6 -> Rabs (a - c) <= 21 * u + 2.5e-6). { intros a b c e1 e2 A B C. apply Rabs_le_inv in A, B. apply Rabs_le. lra. }
  destruct (dec_cases x F) as [[C ->]|[C ->]].
  - destruct (dec_lin_round x t F Ht H C) as [Gv Ev]. set (v := Bdiv _ _ _) in *. pose proof (Rabs_le_inv _ _ Ev) as Ev'. assert (DL : -0.018 <= dLin t <= 0.0106) by (unfold dLin; lra). destruct (enc_cases v Gv) as [[C2 ->]|[C2 ->]].
    + assert (V : Rabs (B2R v) <= 0.02) by (apply Rabs_le; lra). destruct (lin_round v Gv ltac:(lra)) as [G E]. split; [exact G|]. pose proof (eLin_near (B2R v) (dLin t)) as N. rewrite dLin_eLin in N. apply (ADD _ _ _ _ _ E N). assert ((17 * Rabs (B2R v) + 0.3) * u <= 0.7 * u) by (apply Rmult_le_compat_r; lra). lra.
    + destruct (arg_round v Gv ltac:(lra)) as [Gz Ez]. destruct (log_tail _ (5.555556 * B2R v + 0.052272) (3.1 * u) Gz ltac:(lra) ltac:(lra) Ez) as [G E]. split; [exact G|]. change (0.247190 * lg (5.555556 * B2R v + 0.052272) + 0.385537) with (eLog (B2R v)) in E.
      pose proof (cross (dLin t) (B2R v) ltac:(lra)) as X. rewrite dLin_eLin, <- (Rabs_Ropp (t - _)) in X. replace (- (t - eLog (B2R v))) with (eLog (B2R v) - t) in X by ring. apply (ADD _ _ _ _ _ E X).
      assert (T1 : dLin t <= 0.01059104 + 0.3 * u) by (unfold dLin; lra). assert (Rabs (dLin t - cut) <= 4e-8 + 0.5 * u) by (apply Rabs_le; lra). assert (Rabs (B2R v - cut) <= 4e-8 + 0.8 * u) by (apply Rabs_le; lra). lra.
  - destruct (dec_log_round x t F Ht H C) as (Gv & Ev & Bp). set (v := Bdiv _ _ _) in *. set (p := Rpower _ _) in *. pose proof (rel_bounds _ _ _ Ev) as Bv. assert (up : 0 <= u * p <= / 10000000 * p) by (split; [apply Rmult_le_pos; lra|apply Rmult_le_compat_r; lra]).
    assert (V : 0.0105 <= B2R v <= 60) by lra. destruct (enc_cases v Gv) as [[C2 ->]|[C2 ->]].
    + destruct (lin_round v Gv ltac:(apply Rabs_le; lra)) as [G E]. split; [exact G|]. rewrite (Rabs_pos_eq (B2R v)) in E by lra. assert (E' : (17 * B2R v + 0.3) * u <= 0.5 * u) by (apply Rmult_le_compat_r; lra).
      assert (P1 : p <= 0.1112) by lra. assert (UP : u * p <= 0.1112 * u) by (rewrite (Rmult_comm u); apply Rmult_le_compat_r; lra). assert (Y : 5.555556 * dLog t + 0.052272 = p) by apply dLog_arg. set (y := dLog t) in *. assert (D1 : Rabs (B2R v - y) <= 0.9 * u) by (apply Rabs_le; lra). apply Rabs_le_inv in D1.
      pose proof (cross (B2R v) y ltac:(lra)) as X. assert (ET : eLog y = t) by apply dLog_eLog. rewrite ET in X. apply (ADD _ _ _ _ _ E X). assert (Rabs (B2R v - cut) <= u) by (apply Rabs_le; lra). assert (Rabs (y - cut) <= u) by (apply Rabs_le; lra). lra.
    + destruct (arg_round v Gv V) as [Gz Ez]. pose proof (rel_trans _ _ _ _ _ Ez Ev ltac:(lra) ltac:(lra) ltac:(lra)) as RZ. destruct (log_tail _ p (3.1 * u + 1.01 * (44 * u)) Gz ltac:(lra) ltac:(lra) RZ) as [G E]. split; [exact G|].
      assert (ET : 0.247190 * lg p + 0.385537 = t). { pose proof (dLog_eLog t) as Q. unfold eLog in Q. rewrite dLog_arg in Q. exact Q. } rewrite ET in E. eapply Rle_trans; [exact E|]. lra.
Qed.
Theorem code_same M k : (1 <= M <= 65535)%Z -> (0 <= k <= M)%Z -> @quantize _ ops M (@enc_alexa_t _ ops (@dec_alexa_t _ ops (@dequantize _ ops M k))) = k.
Proof.
  intros HM Hk. destruct (CurveProofs.u24 prec P5) as [U0 U]. destruct (fdeq prec emax P5 L lit M k HM Hk) as (F & _ & Bt & E). destruct (code_trip _ _ F Bt E) as [G D]. set (c := enc_alexa_t _) in *. pose proof (fquant prec emax P5 L lit M c HM G) as Q.
  assert (M1 : 1 <= IZR M <= 65535) by (split; apply IZR_le; lia). pose proof (clampR_near _ _ _ D) as N. rewrite (clampR_mid (IZR k / IZR M)) in N by exact Bt.
  assert (X : Rabs (clampR (B2R c) * IZR M - IZR k) <= (21 * u + 2.5e-6) * IZR M). { replace (clampR (B2R c) * IZR M - IZR k) with ((clampR (B2R c) - IZR k / IZR M) * IZR M) by (field; lra). rewrite Rabs_mult, (Rabs_pos_eq (IZR M)) by lra. apply Rmult_le_compat_r; lra. }
  assert (W : (21 * u + 2.5e-6) * IZR M <= 0.39). { apply Rle_trans with ((21 * / 10000000 + 2.5e-6) * 65535); [apply Rmult_le_compat; lra|lra]. } assert (IZR M * u <= 65535 * / 10000000) by (apply Rmult_le_compat; lra).
  assert (Z.abs (@quantize _ ops M c - k) <= 0)%Z; [|lia]. apply int_gap. apply Rabs_le_inv in Q, X. apply Rabs_def1; lra.
Qed.
End Fmt.
