(* C30-C36: transfer functions, exact arithmetic *)
From Coq Require Import Reals ZArith QArith Qreals Lra Lia List Bool.
From Flocq Require Import Core.
From Verif Require Import Outcome RealOps MathModel ColorModel SpaceModel XReal SpecLin TransferProofs.
Import ListNotations.
Open Scope R_scope.

Section P.
Context {K : XConst}.

(* ---- helpers: powers against the switching points ---- *)
Lemma srgb_power_small x : 0 < x -> x < srgb_knee -> 1.055 * Rpower x (5 / 12) - 0.055 < 0.040449936.
Proof.
  intros H0 H. assert (Rpower x (5 / 12) < Rpower srgb_knee (5 / 12)) by (apply Rpower_lt; lra).
  unfold srgb_knee in *. rewrite Rpower_inv in * by lra. lra.
Qed.
Lemma srgb_power_large x : srgb_knee < x -> 0.040449936 < 1.055 * Rpower x (5 / 12) - 0.055.
Proof.
  intros H. pose proof srgb_knee_bounds.
  assert (Rpower srgb_knee (5 / 12) < Rpower x (5 / 12)) by (apply Rpower_lt; lra).
  unfold srgb_knee in *. rewrite Rpower_inv in * by lra. lra.
Qed.
Lemma bt709_power_large x : 0.018 <= x -> bt709_knee <= 1.099 * Rpower x (9 / 20) - 0.099.
Proof.
  intro H. unfold bt709_knee. assert (Rpower 0.018 (9 / 20) <= Rpower x (9 / 20)) by (apply Rpower_mono; lra). lra.
Qed.
Lemma bt709_inv_large f : bt709_knee < f -> 0.018 < Rpower ((f + 0.099) / 1.099) (20 / 9).
Proof.
  intro H. pose proof bt709_knee_bounds.
  rewrite <- (Rpower_inv 0.018 (9 / 20) (20 / 9)) by lra.
  apply Rpower_lt; [lra|apply Rpower_gt0|]. unfold bt709_knee in H. lra.
Qed.
Lemma bt709_inv_large' f : bt709_knee <= f -> 0.018 <= Rpower ((f + 0.099) / 1.099) (20 / 9).
Proof.
  intro H. pose proof bt709_knee_bounds.
  rewrite <- (Rpower_inv 0.018 (9 / 20) (20 / 9)) by lra.
  apply Rpower_mono; [lra|apply Rpower_gt0|]. unfold bt709_knee in H. lra.
Qed.
Lemma bt709_inv_small f : -0.099 < f < bt709_knee -> Rpower ((f + 0.099) / 1.099) (20 / 9) < 0.018.
Proof.
  intro H. rewrite <- (Rpower_inv 0.018 (9 / 20) (20 / 9)) by lra.
  apply Rpower_lt; [lra|lra|]. unfold bt709_knee in H. lra.
Qed.

(* ---- C30 ---- *)
Theorem C30_srgb_encode_decode : forall f : R, enc_srgb_t (dec_srgb_t (Fin f)) = Fin f.
Proof.
  intro f. destruct (Rle_dec f 0.040449936) as [H|H].
  - rewrite dec_srgb_lin by exact H. rewrite enc_srgb_lin by lra. apply (f_equal Fin). lra.
  - apply Rnot_le_lt in H. rewrite dec_srgb_pow by exact H. pose proof srgb_knee_bounds.
    assert (srgb_knee < Rpower ((f + 0.055) / 1.055) (12 / 5)) by (apply Rpower_lt; lra).
    rewrite enc_srgb_pow by lra. rewrite Rpower_inv by lra. apply (f_equal Fin). lra.
Qed.

Theorem C30_srgb_decode_encode_partial : forall x : R, x <= 0.0031308 \/ 0.003130803 <= x ->
  dec_srgb_t (enc_srgb_t (Fin x)) = Fin x.
Proof.
  intros x [H|H].
  - rewrite enc_srgb_lin by exact H. rewrite dec_srgb_lin by lra. apply (f_equal Fin). lra.
  - pose proof srgb_knee_bounds. rewrite enc_srgb_pow by lra.
    rewrite dec_srgb_pow by (apply srgb_power_large; lra).
    replace ((1.055 * Rpower x (5 / 12) - 0.055 + 0.055) / 1.055) with (Rpower x (5 / 12)) by lra.
    rewrite Rpower_inv by lra. reflexivity.
Qed.

(* just above the switch the encoder jumps down and the decoder takes the wrong branch *)
Theorem C30_srgb_decode_encode_refuted : exists x : R, 0 < x < 1 /\ dec_srgb_t (enc_srgb_t (Fin x)) <> Fin x.
Proof.
  exists 0.003130801. split; [lra|]. pose proof srgb_knee_bounds.
  rewrite enc_srgb_pow by lra.
  pose proof (srgb_power_small 0.003130801 ltac:(lra) ltac:(lra)).
  rewrite dec_srgb_lin by lra. intro E. injection E as E. lra.
Qed.

Example C30_example : enc_srgb_t (Fin 1) = Fin 1.
Proof. rewrite enc_srgb_pow by lra. rewrite Rpower_one. apply (f_equal Fin). lra. Qed.

(* ---- C31 ---- *)
Theorem C31_bt709_decode_encode : forall x : R, dec_bt709_t (enc_bt709_t (Fin x)) = Fin x.
Proof.
  intro x. destruct (Rle_dec x 0.018) as [H|H].
  - rewrite enc_709_lin by exact H. rewrite dec_709_lin by lra. apply (f_equal Fin). lra.
  - apply Rnot_le_lt in H. rewrite enc_709_pow by exact H.
    pose proof bt709_knee_bounds. pose proof (bt709_power_large x ltac:(lra)).
    rewrite dec_709_pow by lra.
    replace ((1.099 * Rpower x (9 / 20) - 0.099 + 0.099) / 1.099) with (Rpower x (9 / 20)) by lra.
    rewrite Rpower_inv by lra. reflexivity.
Qed.
Theorem C31_bt709_encode_decode_partial : forall f : R, f <= 0.081 \/ 0.081248 <= f ->
  enc_bt709_t (dec_bt709_t (Fin f)) = Fin f.
Proof.
  intros f [H|H].
  - rewrite dec_709_lin by exact H. rewrite enc_709_lin by lra. apply (f_equal Fin). lra.
  - pose proof bt709_knee_bounds. rewrite dec_709_pow by lra.
    rewrite enc_709_pow by (apply bt709_inv_large; lra). rewrite Rpower_inv by lra.
    apply (f_equal Fin). lra.
Qed.
Theorem C31_bt709_encode_decode_refuted : exists f : R, 0 < f < 1 /\ enc_bt709_t (dec_bt709_t (Fin f)) <> Fin f.
Proof.
  exists 0.0812. split; [lra|]. pose proof bt709_knee_bounds. rewrite dec_709_pow by lra.
  pose proof (bt709_inv_small 0.0812 ltac:(lra)).
  rewrite enc_709_lin by lra. intro E. injection E as E. lra.
Qed.
Example C31_example : enc_bt709_t (Fin 0.01) = Fin 0.045.
Proof. rewrite enc_709_lin by lra. apply (f_equal Fin). lra. Qed.

(* ---- C32 ---- *)
Theorem C32_bt2020_decode_encode : forall x : R, dec_bt2020_t (enc_bt2020_t (Fin x)) = Fin x.
Proof.
  intro x. destruct (Rlt_dec x 0.018) as [H|H].
  - rewrite enc_2020_lin by exact H. rewrite dec_2020_lin by lra. apply (f_equal Fin). lra.
  - apply Rnot_lt_le in H. rewrite enc_2020_pow by exact H.
    pose proof bt709_knee_bounds. pose proof (bt709_power_large x ltac:(lra)).
    rewrite dec_2020_pow by lra.
    replace ((1.099 * Rpower x (9 / 20) - 0.099 + 0.099) / 1.099) with (Rpower x (9 / 20)) by lra.
    rewrite Rpower_inv by lra. reflexivity.
Qed.
Theorem C32_bt2020_encode_decode_partial : forall f : R, f < 0.081 \/ 0.081248 <= f ->
  enc_bt2020_t (dec_bt2020_t (Fin f)) = Fin f.
Proof.
  intros f [H|H].
  - rewrite dec_2020_lin by exact H. rewrite enc_2020_lin by lra. apply (f_equal Fin). lra.
  - pose proof bt709_knee_bounds. rewrite dec_2020_pow by lra.
    rewrite enc_2020_pow by (apply bt709_inv_large'; lra). rewrite Rpower_inv by lra.
    apply (f_equal Fin). lra.
Qed.
Theorem C32_bt2020_encode_decode_refuted : exists f : R, 0 < f < 1 /\ enc_bt2020_t (dec_bt2020_t (Fin f)) <> Fin f.
Proof.
  exists 0.0812. split; [lra|]. pose proof bt709_knee_bounds. rewrite dec_2020_pow by lra.
  pose proof (bt709_inv_small 0.0812 ltac:(lra)).
  rewrite enc_2020_lin by lra. intro E. injection E as E. lra.
Qed.
Example C32_example : dec_bt2020_t (Fin 1) = Fin 1.
Proof.
  rewrite dec_2020_pow by lra. replace ((1 + 0.099) / 1.099) with 1 by lra. rewrite Rpower_one. reflexivity.
Qed.

(* ---- C33 ---- *)
Lemma alexa_enc_log_gt x t : 0 < 5.555556 * x + 0.052272 ->
  (t < 0.247190 * (ln (5.555556 * x + 0.052272) / ln 10) + 0.385537
   <-> Rpower 10 ((t - 0.385537) / 0.247190) < 5.555556 * x + 0.052272).
Proof.
  intro P. set (u := 5.555556 * x + 0.052272) in *. pose proof ln10_pos as L.
  assert (E : 0.247190 * (ln u / ln 10) + 0.385537 - t = 0.247190 / ln 10 * (ln u - (t - 0.385537) / 0.247190 * ln 10)).
  { field. lra. }
  assert (Q : 0 < 0.247190 / ln 10). { apply Rmult_lt_0_compat; [lra|apply Rinv_0_lt_compat, L]. }
  unfold Rpower. split; intro H.
  - rewrite <- (exp_ln u P). apply exp_increasing.
    assert (0 < 0.247190 / ln 10 * (ln u - (t - 0.385537) / 0.247190 * ln 10)) by lra.
    apply (Rmult_lt_reg_l (0.247190 / ln 10)); [exact Q|]. lra.
  - rewrite <- (exp_ln u P) in H. apply exp_lt_inv in H.
    assert (0 < 0.247190 / ln 10 * (ln u - (t - 0.385537) / 0.247190 * ln 10)).
    { apply Rmult_lt_0_compat; lra. }
    lra.
Qed.
Lemma alexa_log_pow u : 0 < u ->
  Rpower 10 ((0.247190 * (ln u / ln 10) + 0.385537 - 0.385537) / 0.247190) = u.
Proof.
  intro P. pose proof ln10_pos as L.
  replace ((0.247190 * (ln u / ln 10) + 0.385537 - 0.385537) / 0.247190) with (ln u / ln 10) by (field; lra).
  unfold Rpower. replace (ln u / ln 10 * ln 10) with (ln u) by (field; lra). apply exp_ln, P.
Qed.
Lemma alexa_dec_gt t : 0.149658 < t -> alexa_knee < (Rpower 10 ((t - 0.385537) / 0.247190) - 0.052272) / 5.555556.
Proof.
  intro H. unfold alexa_knee.
  assert (Rpower 10 ((0.149658 - 0.385537) / 0.247190) < Rpower 10 ((t - 0.385537) / 0.247190)).
  { unfold Rpower. apply exp_increasing. apply Rmult_lt_compat_r; [apply ln10_pos|lra]. }
  lra.
Qed.

Theorem C33_alexa_decode_encode_partial : forall x : R, x <= 0.010591 \/ 0.0107 <= x ->
  dec_alexa_t (enc_alexa_t (Fin x)) = Fin x.
Proof.
  intros x [H|H].
  - rewrite enc_alexa_lin by exact H. rewrite dec_alexa_lin by lra. apply (f_equal Fin). lra.
  - rewrite enc_alexa_log by lra.
    rewrite dec_alexa_log.
    + rewrite alexa_log_pow by lra. apply (f_equal Fin). lra.
    + apply alexa_enc_log_gt; [lra|]. pose proof alexa_knee_upper as U. unfold alexa_knee in U. lra.
Qed.
Theorem C33_alexa_encode_decode_partial : forall t : R, t <= 0.149657834105 \/ 0.149658 < t ->
  enc_alexa_t (dec_alexa_t (Fin t)) = Fin t.
Proof.
  intros t [H|H].
  - rewrite dec_alexa_lin by lra. rewrite enc_alexa_lin by lra. apply (f_equal Fin). lra.
  - rewrite dec_alexa_log by exact H. pose proof (alexa_dec_gt t H). pose proof alexa_knee_bound.
    rewrite enc_alexa_log by lra. apply (f_equal Fin).
    replace (5.555556 * ((Rpower 10 ((t - 0.385537) / 0.247190) - 0.052272) / 5.555556) + 0.052272)
      with (Rpower 10 ((t - 0.385537) / 0.247190)) by lra.
    unfold Rpower. rewrite ln_exp. pose proof ln10_pos. field. lra.
Qed.
Lemma alexa_jump : 0.247190 * (ln (5.555556 * 0.01059102 + 0.052272) / ln 10) + 0.385537 < 0.149657834105.
Proof.
  pose proof (alexa_ninth 0.149657834105 ltac:(lra)) as N.
  destruct (Rlt_dec (0.247190 * (ln (5.555556 * 0.01059102 + 0.052272) / ln 10) + 0.385537) 0.149657834105) as [H|H]; [exact H|].
  apply Rnot_lt_le in H. exfalso.
  assert (G : Rpower 10 ((0.149657834105 - 0.385537) / 0.247190) <= 5.555556 * 0.01059102 + 0.052272).
  { destruct H as [H|E].
    - left. apply alexa_enc_log_gt; [lra|exact H].
    - rewrite E. rewrite alexa_log_pow by lra. apply Rle_refl. }
  lra.
Qed.
Theorem C33_alexa_refuted :
  (exists x : R, 0 < x < 1 /\ dec_alexa_t (enc_alexa_t (Fin x)) <> Fin x)
  /\ (exists t : R, 0 < t < 1 /\ enc_alexa_t (dec_alexa_t (Fin t)) <> Fin t).
Proof.
  split.
  - exists 0.01059102. split; [lra|]. rewrite enc_alexa_log by lra. pose proof alexa_jump.
    rewrite dec_alexa_lin by lra. intro E. injection E as E. lra.
  - exists 0.14965794. split; [lra|]. rewrite dec_alexa_lin by lra.
    set (x := (0.14965794 - 0.092809) / 5.367655).
    assert (Hx : 0.010591019 < x < 0.01059102) by (unfold x; lra).
    rewrite enc_alexa_log by lra. pose proof alexa_jump as J. intro E. injection E as E.
    assert (M : ln (5.555556 * x + 0.052272) < ln (5.555556 * 0.01059102 + 0.052272)) by (apply ln_increasing; lra).
    pose proof ln10_pos as L.
    assert (ln (5.555556 * x + 0.052272) / ln 10 < ln (5.555556 * 0.01059102 + 0.052272) / ln 10).
    { apply Rmult_lt_compat_r; [apply Rinv_0_lt_compat, L|exact M]. }
    lra.
Qed.
Example C33_example : enc_alexa_t (Fin 0) = Fin 0.092809.
Proof. rewrite enc_alexa_lin by lra. apply (f_equal Fin). lra. Qed.

(* ---- C34 ---- *)
Lemma powf_neg x y n : x < 0 -> IZR n < y < IZR (n + 1) -> xpowf (Fin x) (Fin y) = Bad.
Proof.
  intros Hx Hy. unfold xpowf. destruct (Rlt_dec 0 x); [lra|]. destruct (Req_EM_T x 0); [lra|].
  destruct (Req_EM_T y (IZR (Zfloor y))) as [E|E]; [|reflexivity]. exfalso.
  rewrite E in Hy. destruct Hy as [H1 H2]. apply lt_IZR in H1, H2. lia.
Qed.
Definition pow_pair (e d : R) : Prop := 0 < e /\ 0 < d /\ e * d = 1.
Lemma powf_roundtrip x e d : pow_pair e d -> 0 <= x -> rpowf (rpowf (Fin x) (Fin e)) (Fin d) = Fin x.
Proof.
  intros (He & Hd & E) [H| <-].
  - rewrite x_powf by exact H. rewrite x_powf by apply Rpower_gt0. rewrite Rpower_inv by assumption. reflexivity.
  - rewrite !x_powf0 by assumption. reflexivity.
Qed.

(* s is one of the three spaces with a pure power law *)
Definition power_space (s : color_space xr) (g : R) : Prop :=
  (DCI_P3 = Ret s /\ g = 2.6) \/ (DCI_P3_D65 = Ret s /\ g = 2.6) \/ (s = ADOBE_RGB_1998 /\ g = 2.19921875).

Lemma lit_inv q g : Q2R q = g -> g <> 0 -> rdiv (rlit 1.0) (rlit q : xr) = Fin (/ g).
Proof.
  intros E H. xs. rewrite E, x_div by exact H. apply (f_equal Fin).
  replace (Q2R 1.0) with 1 by (q2r; lra). field. exact H.
Qed.
Lemma power_space_curves s g : power_space s g ->
  cs_oetf s = pow_curve (Fin (/ g)) /\ cs_eotf s = pow_curve (Fin g) /\ (2 < g < 3).
Proof.
  assert (A : Q2R 2.6 = 2.6) by (q2r; lra). assert (B : Q2R 2.19921875 = 2.19921875) by (q2r; lra).
  intros [[H ->]|[[H ->]|[-> ->]]].
  - unfold DCI_P3, cs_new in H. destruct (mat_inverse _); [|discriminate]. cbn [unwrap obind] in H.
    injection H as <-. split; [|split; [|lra]].
    + exact (f_equal pow_curve (lit_inv 2.6 2.6 A ltac:(lra))).
    + exact (f_equal (fun r => pow_curve (Fin r)) A).
  - unfold DCI_P3_D65, cs_new in H. destruct (mat_inverse _); [|discriminate]. cbn [unwrap obind] in H.
    injection H as <-. split; [|split; [|lra]].
    + exact (f_equal pow_curve (lit_inv 2.6 2.6 A ltac:(lra))).
    + exact (f_equal (fun r => pow_curve (Fin r)) A).
  - split; [|split; [|lra]].
    + exact (f_equal pow_curve (lit_inv 2.19921875 2.19921875 B ltac:(lra))).
    + exact (f_equal (fun r => pow_curve (Fin r)) B).
Qed.

Theorem C34_power_law_roundtrip : forall (s : color_space xr) (g : R), power_space s g ->
  (forall r g' b, 0 <= r -> 0 <= g' -> 0 <= b ->
   cs_decode s (cs_encode s (FinRgb (r, g', b))) = FinRgb (r, g', b)
   /\ cs_encode s (cs_decode s (FinRgb (r, g', b))) = FinRgb (r, g', b))
  /\ (forall r g' b, 0 <= r -> cs_decode s (FinRgb (r, g', b)) =
        Rgb (if Req_EM_T r 0 then Fin 0 else Fin (Rpower r g))
            (rgb_g (cs_decode s (FinRgb (r, g', b)))) (rgb_b (cs_decode s (FinRgb (r, g', b)))))
  /\ (forall r g' b, r < 0 -> rgb_r (cs_encode s (FinRgb (r, g', b))) = Bad
        /\ rgb_r (cs_decode s (FinRgb (r, g', b))) = Bad)
  /\ (forall r g' b, g' < 0 -> rgb_g (cs_encode s (FinRgb (r, g', b))) = Bad
        /\ rgb_g (cs_decode s (FinRgb (r, g', b))) = Bad)
  /\ (forall r g' b, b < 0 -> rgb_b (cs_encode s (FinRgb (r, g', b))) = Bad
        /\ rgb_b (cs_decode s (FinRgb (r, g', b))) = Bad).
Proof.
  intros s g H. destruct (power_space_curves s g H) as (Eo & Ee & Hg).
  unfold cs_decode, cs_encode. rewrite Eo, Ee. unfold pow_curve, rgb_powf.
  assert (I : 0 < / g) by (apply Rinv_0_lt_compat; lra).
  assert (I1 : / g < 1) by (rewrite <- Rinv_1; apply Rinv_lt_contravar; lra).
  assert (P1 : pow_pair (/ g) g) by (repeat split; try lra; field; lra).
  assert (P2 : pow_pair g (/ g)) by (repeat split; try lra; field; lra).
  repeat apply conj.
  - intros r g' b Hr Hg' Hb. cbn [FinRgb rgb_r rgb_g rgb_b].
    rewrite !(powf_roundtrip _ _ _ P1), !(powf_roundtrip _ _ _ P2) by assumption. split; reflexivity.
  - intros r g' b Hr. cbn [FinRgb rgb_r rgb_g rgb_b]. f_equal. destruct (Req_EM_T r 0) as [->|N].
    + apply x_powf0. lra.
    + apply x_powf. lra.
  - intros r g' b Hr. cbn [FinRgb rgb_r]. split; [apply (powf_neg r _ 0) | apply (powf_neg r _ 2)]; cbn; lra.
  - intros r g' b Hr. cbn [FinRgb rgb_g]. split; [apply (powf_neg g' _ 0) | apply (powf_neg g' _ 2)]; cbn; lra.
  - intros r g' b Hr. cbn [FinRgb rgb_b]. split; [apply (powf_neg b _ 0) | apply (powf_neg b _ 2)]; cbn; lra.
Qed.
End P.

(* linear spaces, for every number type *)
Theorem C34_linear_identity : forall (T : Type) (OT : RealOps T) (c : rgbf T),
  (forall s, ACES_CG = Ret s -> cs_encode s c = c /\ cs_decode s c = c)
  /\ cs_encode ACES c = c /\ cs_decode ACES c = c.
Proof.
  intros T OT [r g b]. repeat apply conj; try reflexivity.
  intros s H. unfold ACES_CG, cs_new in H. destruct (mat_inverse _); [|discriminate].
  cbn [unwrap obind] in H. injection H as <-. split; reflexivity.
Qed.

Section Q.
Context {K : XConst}.

(* ---- C35 ---- *)
(* finite results, and order kept *)
Definition nondecreasing (D : R -> Prop) (f : xr -> xr) : Prop :=
  forall x y, D x -> D y -> x <= y -> exists x' y', f (Fin x) = Fin x' /\ f (Fin y) = Fin y' /\ x' <= y'.
Definition all (_ : R) : Prop := True.
Definition unit_range (f : xr -> xr) : Prop :=
  f (Fin 0) = Fin 0 /\ f (Fin 1) = Fin 1 /\ forall x, 0 <= x <= 1 -> exists y, f (Fin x) = Fin y /\ 0 <= y <= 1.

Lemma unit_range_of f : nondecreasing (fun x => 0 <= x) f -> f (Fin 0) = Fin 0 -> f (Fin 1) = Fin 1 -> unit_range f.
Proof.
  intros M E0 E1. split; [exact E0|]. split; [exact E1|]. intros x [H0 H1].
  destruct (M 0 x) as (a & b & Ea & Eb & L); [lra|lra|lra|].
  destruct (M x 1) as (c & d & Ec & Ed & L'); [lra|lra|lra|].
  exists b. split; [exact Eb|]. assert (c = b) by congruence. assert (a = 0) by congruence. assert (d = 1) by congruence. lra.
Qed.
Lemma nondecreasing_sub (D D' : R -> Prop) f : (forall x, D' x -> D x) -> nondecreasing D f -> nondecreasing D' f.
Proof. intros S M x y Hx Hy. apply M; auto. Qed.

Lemma dec_srgb_mono : nondecreasing all dec_srgb_t.
Proof.
  intros x y _ _ H. pose proof srgb_knee_bounds as B.
  assert (P : forall f, 0.040449936 < f -> srgb_knee < Rpower ((f + 0.055) / 1.055) (12 / 5)).
  { intros f Hf. apply Rpower_lt; lra. }
  destruct (Rle_dec y 0.040449936) as [Hy|Hy].
  - rewrite !dec_srgb_lin by lra. do 2 eexists. repeat split. lra.
  - apply Rnot_le_lt in Hy. destruct (Rle_dec x 0.040449936) as [Hx|Hx].
    + rewrite dec_srgb_lin, dec_srgb_pow by lra. do 2 eexists. repeat split. specialize (P y Hy). lra.
    + rewrite !dec_srgb_pow by lra. do 2 eexists. repeat split. apply Rpower_mono; lra.
Qed.
Lemma enc_709_mono : nondecreasing all enc_bt709_t.
Proof.
  intros x y _ _ H. pose proof bt709_knee_bounds as B. destruct (Rle_dec y 0.018) as [Hy|Hy].
  - rewrite !enc_709_lin by lra. do 2 eexists. repeat split. lra.
  - apply Rnot_le_lt in Hy. pose proof (bt709_power_large y ltac:(lra)). destruct (Rle_dec x 0.018) as [Hx|Hx].
    + rewrite enc_709_lin, enc_709_pow by lra. do 2 eexists. repeat split. lra.
    + rewrite !enc_709_pow by lra. do 2 eexists. repeat split.
      assert (Rpower x (9 / 20) <= Rpower y (9 / 20)) by (apply Rpower_mono; lra). lra.
Qed.
Lemma enc_2020_mono : nondecreasing all enc_bt2020_t.
Proof.
  intros x y _ _ H. pose proof bt709_knee_bounds as B. destruct (Rlt_dec y 0.018) as [Hy|Hy].
  - rewrite !enc_2020_lin by lra. do 2 eexists. repeat split. lra.
  - apply Rnot_lt_le in Hy. pose proof (bt709_power_large y ltac:(lra)). destruct (Rlt_dec x 0.018) as [Hx|Hx].
    + rewrite enc_2020_lin, enc_2020_pow by lra. do 2 eexists. repeat split. lra.
    + rewrite !enc_2020_pow by lra. do 2 eexists. repeat split.
      assert (Rpower x (9 / 20) <= Rpower y (9 / 20)) by (apply Rpower_mono; lra). lra.
Qed.
Lemma dec_alexa_mono : nondecreasing all dec_alexa_t.
Proof.
  intros x y _ _ H. pose proof alexa_knee_bound as B. destruct (Rle_dec y 0.149658) as [Hy|Hy].
  - rewrite !dec_alexa_lin by lra. do 2 eexists. repeat split. lra.
  - apply Rnot_le_lt in Hy. pose proof (alexa_dec_gt y Hy). destruct (Rle_dec x 0.149658) as [Hx|Hx].
    + rewrite dec_alexa_lin, dec_alexa_log by lra. do 2 eexists. repeat split. lra.
    + rewrite !dec_alexa_log by lra. do 2 eexists. repeat split.
      assert (Rpower 10 ((x - 0.385537) / 0.247190) <= Rpower 10 ((y - 0.385537) / 0.247190)).
      { apply Rle_Rpower; lra. }
      lra.
Qed.
Lemma pow_mono g : 0 < g -> nondecreasing (fun x => 0 <= x) (fun v => rpowf v (Fin g)).
Proof.
  intros Hg x y Hx Hy H. destruct Hx as [Hx| <-].
  - rewrite !x_powf by lra. do 2 eexists. repeat split. apply Rpower_mono; lra.
  - rewrite x_powf0 by exact Hg. destruct Hy as [Hy| <-].
    + rewrite x_powf by exact Hy. do 2 eexists. repeat split. left. apply Rpower_gt0.
    + rewrite x_powf0 by exact Hg. do 2 eexists. repeat split. lra.
Qed.

(* What holds: the decoders of sRGB and ALEXA, the encoders of BT.709 and BT.2020 and the power
   laws are nondecreasing everywhere; the other four are outside the short windows given. *)
Theorem C35_monotone_partial :
  nondecreasing all dec_srgb_t /\ nondecreasing all enc_bt709_t /\ nondecreasing all enc_bt2020_t
  /\ nondecreasing all dec_alexa_t /\ nondecreasing all enc_linear_t /\ nondecreasing all dec_linear_t
  /\ (forall g, 0 < g -> nondecreasing (fun x => 0 <= x) (fun v => rpowf v (Fin g)))
  /\ nondecreasing (fun x => x <= 0.0031308 \/ 0.003130803 <= x) enc_srgb_t
  /\ nondecreasing (fun f => f <= 0.081 \/ 0.081248 <= f) dec_bt709_t
  /\ nondecreasing (fun f => f < 0.081 \/ 0.081248 <= f) dec_bt2020_t
  /\ nondecreasing (fun x => x <= 0.010591 \/ 0.0107 <= x) enc_alexa_t.
Proof.
  repeat apply conj.
  - exact dec_srgb_mono.
  - exact enc_709_mono.
  - exact enc_2020_mono.
  - exact dec_alexa_mono.
  - intros x y _ _ H. exists x, y. repeat split. exact H.
  - intros x y _ _ H. exists x, y. repeat split. exact H.
  - exact pow_mono.
  - intros x y Hx Hy H. pose proof srgb_knee_bounds as B. destruct (Rle_dec y 0.0031308) as [Ly|Ly].
    + rewrite !enc_srgb_lin by lra. do 2 eexists. repeat split. lra.
    + apply Rnot_le_lt in Ly. destruct (Rle_dec x 0.0031308) as [Lx|Lx].
      * rewrite enc_srgb_lin, enc_srgb_pow by lra. do 2 eexists. repeat split.
        assert (srgb_knee < y) by lra. pose proof (srgb_power_large y ltac:(lra)). lra.
      * rewrite !enc_srgb_pow by lra. do 2 eexists. repeat split.
        assert (Rpower x (5 / 12) <= Rpower y (5 / 12)) by (apply Rpower_mono; lra). lra.
  - intros x y Hx Hy H. pose proof bt709_knee_bounds as B. destruct (Rle_dec y 0.081) as [Ly|Ly].
    + rewrite !dec_709_lin by lra. do 2 eexists. repeat split. lra.
    + apply Rnot_le_lt in Ly. destruct (Rle_dec x 0.081) as [Lx|Lx].
      * rewrite dec_709_lin, dec_709_pow by lra. do 2 eexists. repeat split.
        pose proof (bt709_inv_large' y ltac:(lra)). lra.
      * rewrite !dec_709_pow by lra. do 2 eexists. repeat split. apply Rpower_mono; lra.
  - intros x y Hx Hy H. pose proof bt709_knee_bounds as B. destruct (Rlt_dec y 0.081) as [Ly|Ly].
    + rewrite !dec_2020_lin by lra. do 2 eexists. repeat split. lra.
    + apply Rnot_lt_le in Ly. destruct (Rlt_dec x 0.081) as [Lx|Lx].
      * rewrite dec_2020_lin, dec_2020_pow by lra. do 2 eexists. repeat split.
        pose proof (bt709_inv_large' y ltac:(lra)). lra.
      * rewrite !dec_2020_pow by lra. do 2 eexists. repeat split. apply Rpower_mono; lra.
  - intros x y Hx Hy H. pose proof alexa_knee_upper as B. destruct (Rle_dec y 0.010591) as [Ly|Ly].
    + rewrite !enc_alexa_lin by lra. do 2 eexists. repeat split. lra.
    + apply Rnot_le_lt in Ly. destruct (Rle_dec x 0.010591) as [Lx|Lx].
      * rewrite enc_alexa_lin, enc_alexa_log by lra. do 2 eexists. repeat split.
        assert (0.149658 < 0.247190 * (ln (5.555556 * y + 0.052272) / ln 10) + 0.385537).
        { apply alexa_enc_log_gt; [lra|]. unfold alexa_knee in B. lra. }
        lra.
      * rewrite !enc_alexa_log by lra. do 2 eexists. repeat split.
        assert (ln (5.555556 * x + 0.052272) <= ln (5.555556 * y + 0.052272)).
        { destruct H as [H|E]; [left; apply ln_increasing; lra| rewrite E; apply Rle_refl]. }
        assert (ln (5.555556 * x + 0.052272) / ln 10 <= ln (5.555556 * y + 0.052272) / ln 10).
        { apply Rmult_le_compat_r; [left; apply Rinv_0_lt_compat, ln10_pos|assumption]. }
        lra.
Qed.

(* the four jumps down *)
Theorem C35_monotone_refuted :
  (exists x y x' y', 0 < x < y /\ y < 1 /\ enc_srgb_t (Fin x) = Fin x' /\ enc_srgb_t (Fin y) = Fin y' /\ y' < x')
  /\ (exists x y x' y', 0 < x < y /\ y < 1 /\ dec_bt709_t (Fin x) = Fin x' /\ dec_bt709_t (Fin y) = Fin y' /\ y' < x')
  /\ (exists x y x' y', 0 < x < y /\ y < 1 /\ dec_bt2020_t (Fin x) = Fin x' /\ dec_bt2020_t (Fin y) = Fin y' /\ y' < x')
  /\ (exists x y x' y', 0 < x < y /\ y < 1 /\ enc_alexa_t (Fin x) = Fin x' /\ enc_alexa_t (Fin y) = Fin y' /\ y' < x').
Proof.
  repeat apply conj.
  - exists 0.0031308, 0.003130801. pose proof srgb_knee_bounds.
    pose proof (srgb_power_small 0.003130801 ltac:(lra) ltac:(lra)).
    rewrite enc_srgb_lin, enc_srgb_pow by lra. do 2 eexists. repeat split; lra.
  - assert (G : Rpower ((0.081001 + 0.099) / 1.099) (20 / 9) < 0.017999).
    { apply (gt_frac_power _ _ 20 9); [lra|lra|cbn; lra|lia|]. lra. }
    exists 0.081, 0.081001. rewrite dec_709_lin, dec_709_pow by lra. do 2 eexists. repeat split; lra.
  - assert (G : Rpower ((0.081 + 0.099) / 1.099) (20 / 9) < 0.01799).
    { apply (gt_frac_power _ _ 20 9); [lra|lra|cbn; lra|lia|]. lra. }
    exists 0.080999, 0.081. rewrite dec_2020_lin, dec_2020_pow by lra. do 2 eexists. repeat split; lra.
  - exists 0.010591, 0.01059102. pose proof alexa_jump.
    rewrite enc_alexa_lin, enc_alexa_log by lra. do 2 eexists. repeat split; lra.
Qed.

Theorem C35_unit_range :
  unit_range enc_srgb_t /\ unit_range dec_srgb_t /\ unit_range enc_bt709_t /\ unit_range dec_bt709_t
  /\ unit_range enc_bt2020_t /\ unit_range dec_bt2020_t
  /\ forall g, 0 < g -> unit_range (fun v => rpowf v (Fin g)).
Proof.
  assert (P1 : forall a, Rpower ((1 + a) / (1 + a)) 1 = Rpower ((1 + a) / (1 + a)) 1) by reflexivity.
  assert (Pow01 : forall u a, 0 < a -> 0 < u <= 1 -> 0 < Rpower u a <= 1).
  { intros u a Ha [H0 H1]. split; [apply Rpower_gt0|]. rewrite <- (Rpower_one a). apply Rpower_mono; lra. }
  repeat apply conj.
  - rewrite enc_srgb_lin by lra. apply (f_equal Fin); lra.
  - rewrite enc_srgb_pow, Rpower_one by lra. apply (f_equal Fin); lra.
  - intros x Hx. destruct (Rle_dec x 0.0031308) as [L|L].
    + rewrite enc_srgb_lin by lra. eexists. split; [reflexivity|]. lra.
    + apply Rnot_le_lt in L. rewrite enc_srgb_pow by lra. eexists. split; [reflexivity|].
      pose proof (Pow01 x (5/12) ltac:(lra) ltac:(lra)).
      assert (0.05 / 1 < Rpower x (5 / 12)).
      { apply Rlt_trans with (Rpower 0.0031308 (5 / 12)); [|apply Rpower_lt; lra].
        apply (lt_frac_power _ _ 5 12); [lra|lra|cbn; lra|lia|]. lra. }
      assert (0.0525 < Rpower x (5 / 12)).
      { apply Rlt_trans with (Rpower 0.0031308 (5 / 12)); [|apply Rpower_lt; lra].
        apply (lt_frac_power _ _ 5 12); [lra|lra|cbn; lra|lia|]. lra. }
      lra.
  - rewrite dec_srgb_lin by lra. apply (f_equal Fin); lra.
  - rewrite dec_srgb_pow by lra. replace ((1 + 0.055) / 1.055) with 1 by lra. rewrite Rpower_one. reflexivity.
  - intros x Hx. destruct (Rle_dec x 0.040449936) as [L|L].
    + rewrite dec_srgb_lin by lra. eexists. split; [reflexivity|]. lra.
    + apply Rnot_le_lt in L. rewrite dec_srgb_pow by lra. eexists. split; [reflexivity|].
      pose proof (Pow01 ((x + 0.055) / 1.055) (12/5) ltac:(lra) ltac:(lra)). lra.
  - apply unit_range_of.
    + apply (nondecreasing_sub all); [intros; exact I|exact enc_709_mono].
    + rewrite enc_709_lin by lra. apply (f_equal Fin); lra.
    + rewrite enc_709_pow, Rpower_one by lra. apply (f_equal Fin); lra.
  - apply unit_range_of.
    + apply (nondecreasing_sub all); [intros; exact I|exact enc_709_mono].
    + rewrite enc_709_lin by lra. apply (f_equal Fin); lra.
    + rewrite enc_709_pow, Rpower_one by lra. apply (f_equal Fin); lra.
  - apply unit_range_of.
    + apply (nondecreasing_sub all); [intros; exact I|exact enc_709_mono].
    + rewrite enc_709_lin by lra. apply (f_equal Fin); lra.
    + rewrite enc_709_pow, Rpower_one by lra. apply (f_equal Fin); lra.
  - rewrite dec_709_lin by lra. apply (f_equal Fin); lra.
  - rewrite dec_709_pow by lra. replace ((1 + 0.099) / 1.099) with 1 by lra. rewrite Rpower_one. reflexivity.
  - intros x Hx. destruct (Rle_dec x 0.081) as [L|L].
    + rewrite dec_709_lin by lra. eexists. split; [reflexivity|]. lra.
    + apply Rnot_le_lt in L. rewrite dec_709_pow by lra. eexists. split; [reflexivity|].
      pose proof (Pow01 ((x + 0.099) / 1.099) (20/9) ltac:(lra) ltac:(lra)). lra.
  - rewrite enc_2020_lin by lra. apply (f_equal Fin); lra.
  - rewrite enc_2020_pow, Rpower_one by lra. apply (f_equal Fin); lra.
  - apply unit_range_of.
    + apply (nondecreasing_sub all); [intros; exact I|exact enc_2020_mono].
    + rewrite enc_2020_lin by lra. apply (f_equal Fin); lra.
    + rewrite enc_2020_pow, Rpower_one by lra. apply (f_equal Fin); lra.
  - rewrite dec_2020_lin by lra. apply (f_equal Fin); lra.
  - rewrite dec_2020_pow by lra. replace ((1 + 0.099) / 1.099) with 1 by lra. rewrite Rpower_one. reflexivity.
  - intros x Hx. destruct (Rlt_dec x 0.081) as [L|L].
    + rewrite dec_2020_lin by lra. eexists. split; [reflexivity|]. lra.
    + apply Rnot_lt_le in L. rewrite dec_2020_pow by lra. eexists. split; [reflexivity|].
      pose proof (Pow01 ((x + 0.099) / 1.099) (20/9) ltac:(lra) ltac:(lra)). lra.
  - intros g Hg. apply unit_range_of; [apply pow_mono, Hg | apply x_powf0, Hg |].
    rewrite x_powf by lra. rewrite Rpower_one. reflexivity.
Qed.

(* ---- C36 ---- *)
Lemma quantize_code N k : (0 < N)%Z -> (0 <= k <= N)%Z -> quantize N (Fin (IZR k / IZR N)) = k.
Proof.
  intros HN Hk. assert (PN : 0 < IZR N) by (apply IZR_lt; exact HN).
  assert (H0 : 0 <= IZR k / IZR N).
  { apply Rmult_le_pos; [apply IZR_le; lia|left; apply Rinv_0_lt_compat, PN]. }
  assert (H1 : IZR k / IZR N <= 1).
  { apply (Rmult_le_reg_r (IZR N)); [exact PN|]. unfold Rdiv. rewrite Rmult_assoc, Rinv_l, Rmult_1_r, Rmult_1_l by lra.
    apply IZR_le; lia. }
  unfold quantize, clamp. xs. replace (Q2R 0.0) with 0 by (q2r; lra). replace (Q2R 1.0) with 1 by (q2r; lra).
  rewrite (Rltb_false (IZR k / IZR N) 0) by exact H0. rewrite (Rltb_false 1 (IZR k / IZR N)) by exact H1. xs.
  replace (Q2R (inject_Z N)) with (IZR N) by (unfold Q2R; cbn; field).
  replace (IZR k / IZR N * IZR N) with (IZR k) by (field; lra).
  unfold ras_uint, rround, xr_ops, xlift1, xas_uint, xround.
  rewrite (@Zrnd_IZR ZnearestA _ k), Ztrunc_IZR. lia.
Qed.
Lemma dequantize_fin N k : (0 < N)%Z -> dequantize N k = Fin (IZR k / IZR N).
Proof.
  intro HN. unfold dequantize. xs. assert (0 < IZR N) by (apply IZR_lt; exact HN).
  rewrite x_div; unfold Q2R, inject_Z; cbn [Qnum Qden]; [apply (f_equal Fin); field; lra|lra].
Qed.

(* whole pixels, 8 and 16 bits for sRGB, 8 bits for BT.709 and BT.2020 *)
Definition code_pixel (N : Z) (p : rgbu) : Prop :=
  (0 <= rgb_r p <= N)%Z /\ (0 <= rgb_g p <= N)%Z /\ (0 <= rgb_b p <= N)%Z.

Lemma gap8 k : IZR k / 255 <= 0.080999 \/ 0.081248 <= IZR k / 255.
Proof.
  destruct (Z.le_gt_cases k 20) as [H|H].
  - left. apply IZR_le in H. lra.
  - right. assert (21 <= k)%Z as H' by lia. apply IZR_le in H'. lra.
Qed.

Theorem C36_codes_survive : forall p : rgbu,
  (code_pixel 255 p -> rgb_to_u8 (enc_srgb (dec_srgb (rgb_of_u8 p))) = p
                    /\ rgb_to_u8 (enc_bt709 (dec_bt709 (rgb_of_u8 p))) = p
                    /\ rgb_to_u8 (enc_bt2020 (dec_bt2020 (rgb_of_u8 p))) = p)
  /\ (code_pixel 65535 p -> rgb_to_u16 (enc_srgb (dec_srgb (rgb_of_u16 p))) = p).
Proof.
  intros [r g b]. unfold code_pixel. cbn [rgb_r rgb_g rgb_b].
  unfold rgb_to_u8, rgb_to_u16, rgb_of_u8, rgb_of_u16, rgb_to_uint, rgb_of_uint, enc_srgb, dec_srgb, enc_bt709, dec_bt709,
    enc_bt2020, dec_bt2020, per_channel. cbn [rgb_r rgb_g rgb_b].
  rewrite !(dequantize_fin 255), !(dequantize_fin 65535) by lia. split.
  - intros (Hr & Hg & Hb). repeat apply conj.
    + rewrite !C30_srgb_encode_decode, !quantize_code by lia. reflexivity.
    + rewrite !C31_bt709_encode_decode_partial, !quantize_code; try lia; try reflexivity;
        match goal with |- context [IZR ?k / 255] => destruct (gap8 k); [left|right]; lra end.
    + rewrite !C32_bt2020_encode_decode_partial, !quantize_code; try lia; try reflexivity;
        match goal with |- context [IZR ?k / 255] => destruct (gap8 k); [left|right]; lra end.
  - intros (Hr & Hg & Hb). rewrite !C30_srgb_encode_decode, !quantize_code by lia. reflexivity.
Qed.

(* 16-bit BT.709 codes that fall in the gap do not survive *)
Theorem C36_bt709_16bit_refuted : exists p : rgbu, code_pixel 65535 p
  /\ rgb_to_u16 (enc_bt709 (dec_bt709 (rgb_of_u16 p))) <> p.
Proof.
  exists (Rgb 5310 5310 5310)%Z. split; [repeat split; cbn; lia|].
  unfold rgb_to_u16, rgb_of_u16, rgb_to_uint, rgb_of_uint, enc_bt709, dec_bt709, per_channel. cbn [rgb_r rgb_g rgb_b].
  rewrite !(dequantize_fin 65535) by lia.
  assert (G : Rpower ((5310 / 65535 + 0.099) / 1.099) (20 / 9) < 0.0179645).
  { apply (gt_frac_power _ _ 20 9); [lra|lra|cbn; lra|lia|]. lra. }
  rewrite dec_709_pow by lra. rewrite enc_709_lin by lra.
  set (y := 4.5 * _). assert (Hy : 0 < y < 0.08084025).
  { unfold y. pose proof (Rpower_gt0 ((5310 / 65535 + 0.099) / 1.099) (20 / 9)). lra. }
  intro E. injection E as E _ _. revert E.
  unfold quantize, clamp. xs. replace (Q2R 0.0) with 0 by (q2r; lra). replace (Q2R 1.0) with 1 by (q2r; lra).
  rewrite (Rltb_false y 0) by lra. rewrite (Rltb_false 1 y) by lra. xs.
  replace (Q2R (inject_Z 65535)) with 65535 by (unfold Q2R; cbn; lra).
  unfold ras_uint, rround, xr_ops, xas_uint, xlift1, xlift2, xround. rewrite Ztrunc_IZR. intro E.
  assert (ZnearestA (y * 65535) <= 5298)%Z; [|lia].
  rewrite <- (@Zrnd_IZR ZnearestA _ 5298). apply (@Zrnd_le ZnearestA _). cbn. lra.
Qed.

(* The named spaces pair an encoder with its own decoder: colours survive the pair in the
   direction that has no gap. *)
Theorem C36_space_curves_paired : forall (s : color_space xr) (r g b : R),
  (s = SRGB \/ SRGB_DRV = Ret s -> cs_encode s (cs_decode s (FinRgb (r, g, b))) = FinRgb (r, g, b)
                   /\ cs_encode s (FinRgb (1, 1, 1)) = FinRgb (1, 1, 1)
                   /\ rgb_r (cs_encode s (FinRgb (0.003, g, b))) = Fin 0.03876)
  /\ (ITUR_BT709 = Ret s -> cs_decode s (cs_encode s (FinRgb (r, g, b))) = FinRgb (r, g, b)
                   /\ cs_encode s (FinRgb (1, 1, 1)) = FinRgb (1, 1, 1)
                   /\ rgb_r (cs_encode s (FinRgb (0.01, g, b))) = Fin 0.045)
  /\ (ITUR_BT2020 = Ret s -> cs_decode s (cs_encode s (FinRgb (r, g, b))) = FinRgb (r, g, b)
                   /\ cs_encode s (FinRgb (1, 1, 1)) = FinRgb (1, 1, 1)
                   /\ rgb_r (cs_encode s (FinRgb (0.01, g, b))) = Fin 0.045)
  /\ (s = ALEXA_WIDE_GAMUT -> (r <= 0.010591 \/ 0.0107 <= r) -> (g <= 0.010591 \/ 0.0107 <= g) ->
      (b <= 0.010591 \/ 0.0107 <= b) -> cs_decode s (cs_encode s (FinRgb (r, g, b))) = FinRgb (r, g, b)).
Proof.
  intros s r g b. repeat apply conj.
  - intro H. assert (C : cs_oetf s = enc_srgb /\ cs_eotf s = dec_srgb).
    { destruct H as [->|H]; [split; reflexivity|].
      unfold SRGB_DRV, cs_new in H. destruct (mat_inverse _); [|discriminate]. cbn [unwrap obind] in H.
      injection H as <-. split; reflexivity. }
    destruct C as [E1 E2]. unfold cs_encode, cs_decode. rewrite E1, E2.
    unfold enc_srgb, dec_srgb, per_channel, FinRgb. cbn [rgb_r rgb_g rgb_b]. rewrite !C30_srgb_encode_decode, C30_example.
    rewrite (enc_srgb_lin 0.003) by lra. repeat split. apply (f_equal Fin). lra.
  - intro H. unfold ITUR_BT709, cs_new in H. destruct (mat_inverse _); [|discriminate]. cbn [unwrap obind] in H.
    injection H as <-. unfold cs_encode, cs_decode. cbn [cs_oetf cs_eotf].
    unfold enc_bt709, dec_bt709, per_channel, FinRgb. cbn [rgb_r rgb_g rgb_b]. rewrite !C31_bt709_decode_encode.
    rewrite (enc_709_lin 0.01), (enc_709_pow 1), Rpower_one by lra.
    replace (1.099 * 1 - 0.099) with 1 by lra. repeat split. apply (f_equal Fin). lra.
  - intro H. unfold ITUR_BT2020, cs_new in H. destruct (mat_inverse _); [|discriminate]. cbn [unwrap obind] in H.
    injection H as <-. unfold cs_encode, cs_decode. cbn [cs_oetf cs_eotf].
    unfold enc_bt2020, dec_bt2020, per_channel, FinRgb. cbn [rgb_r rgb_g rgb_b]. rewrite !C32_bt2020_decode_encode.
    rewrite (enc_2020_lin 0.01), (enc_2020_pow 1), Rpower_one by lra.
    replace (1.099 * 1 - 0.099) with 1 by lra. repeat split. apply (f_equal Fin). lra.
  - intros -> Hr Hg Hb. unfold cs_encode, cs_decode, ALEXA_WIDE_GAMUT, cs_new_with_specified_matrices.
    cbn [cs_oetf cs_eotf]. unfold enc_alexa, dec_alexa, per_channel, FinRgb. cbn [rgb_r rgb_g rgb_b].
    rewrite !C33_alexa_decode_encode_partial by assumption. reflexivity.
Qed.
End Q.

Print Assumptions C30_srgb_encode_decode.
Print Assumptions C33_alexa_encode_decode_partial.
Print Assumptions C34_power_law_roundtrip.
Print Assumptions C34_linear_identity.
Print Assumptions C35_monotone_partial.
Print Assumptions C35_unit_range.
Print Assumptions C36_codes_survive.
