(* Transfer functions of color_space_rgb.rs on exact reals *)
From Coq Require Import Reals ZArith QArith Qreals Lra Lia List Bool.
From Flocq Require Import Core.
From Verif Require Import Outcome RealOps MathModel ColorModel SpaceModel XReal SpecLin.
Open Scope R_scope.

(* ---- powers ---- *)
Lemma Rpower_gt0 x a : 0 < Rpower x a.
Proof. unfold Rpower. apply exp_pos. Qed.
Lemma Rpower_inv x a b : 0 < x -> a * b = 1 -> Rpower (Rpower x a) b = x.
Proof. intros H E. rewrite Rpower_mult, E. apply Rpower_1, H. Qed.
Lemma Rpower_mono x y a : 0 < a -> 0 < x -> x <= y -> Rpower x a <= Rpower y a.
Proof.
  intros Ha Hx H. destruct H as [H|E]; [|rewrite E; apply Rle_refl]. left. unfold Rpower. apply exp_increasing.
  apply Rmult_lt_compat_l; [exact Ha|]. apply ln_increasing; assumption.
Qed.
Lemma Rpower_lt x y a : 0 < a -> 0 < x -> x < y -> Rpower x a < Rpower y a.
Proof.
  intros Ha Hx H. unfold Rpower. apply exp_increasing.
  apply Rmult_lt_compat_l; [exact Ha|]. apply ln_increasing; assumption.
Qed.
Lemma Rpower_one a : Rpower 1 a = 1.
Proof. unfold Rpower. rewrite ln_1, Rmult_0_r. apply exp_0. Qed.

(* comparing with a fractional power by integer powers *)
Lemma lt_frac_power x y (p q : nat) a : 0 < x -> 0 < y -> a * INR q = INR p -> (0 < q)%nat ->
  y ^ q < x ^ p -> y < Rpower x a.
Proof.
  intros Hx Hy Ea Hq H.
  assert (Q : 0 < INR q) by (apply lt_0_INR; exact Hq).
  destruct (Rlt_dec y (Rpower x a)) as [L|L]; [exact L|]. exfalso.
  apply Rnot_lt_le in L.
  assert (G : (Rpower x a) ^ q <= y ^ q).
  { apply pow_incr. split; [left; apply Rpower_gt0 | exact L]. }
  rewrite <- (Rpower_pow q (Rpower x a)) in G by apply Rpower_gt0. rewrite Rpower_mult, Ea, Rpower_pow in G by exact Hx. lra.
Qed.
Lemma gt_frac_power x y (p q : nat) a : 0 < x -> 0 < y -> a * INR q = INR p -> (0 < q)%nat ->
  x ^ p < y ^ q -> Rpower x a < y.
Proof.
  intros Hx Hy Ea Hq H.
  assert (Q : 0 < INR q) by (apply lt_0_INR; exact Hq).
  destruct (Rlt_dec (Rpower x a) y) as [L|L]; [exact L|]. exfalso.
  apply Rnot_lt_le in L.
  assert (G : y ^ q <= (Rpower x a) ^ q).
  { apply pow_incr. split; [lra | exact L]. }
  rewrite <- (Rpower_pow q (Rpower x a)) in G by apply Rpower_gt0. rewrite Rpower_mult, Ea, Rpower_pow in G by exact Hx. lra.
Qed.

Ltac qs := repeat match goal with |- context [Q2R ?q] => let v := eval compute in (Qnum q) in
    let d := eval compute in (Qden q) in change (Q2R q) with (IZR v * / IZR (Zpos d)) end.

Section Transfer.
Context {K : XConst}.

(* ---- the functions, branch by branch ---- *)
Lemma enc_srgb_lin x : x <= 0.0031308 -> enc_srgb_t (Fin x) = Fin (12.92 * x).
Proof.
  intro H. unfold enc_srgb_t. xs. rewrite Rleb_true by (q2r; lra). apply (f_equal Fin). q2r; lra.
Qed.
Lemma enc_srgb_pow x : 0.0031308 < x -> enc_srgb_t (Fin x) = Fin (1.055 * Rpower x (5 / 12) - 0.055).
Proof.
  intro H. unfold enc_srgb_t. xs. rewrite Rleb_false by (q2r; lra).
  rewrite x_div by (q2r; lra). rewrite x_powf by lra. xs. apply (f_equal Fin).
  replace (Q2R 1.0 / Q2R 2.4) with (5 / 12) by (q2r; field). q2r. lra.
Qed.
Lemma dec_srgb_lin f : f <= 0.040449936 -> dec_srgb_t (Fin f) = Fin (f / 12.92).
Proof.
  intro H. unfold dec_srgb_t. xs. rewrite Rleb_true by (q2r; lra). rewrite x_div by (q2r; lra).
  apply (f_equal Fin). q2r; lra.
Qed.
Lemma dec_srgb_pow f : 0.040449936 < f -> dec_srgb_t (Fin f) = Fin (Rpower ((f + 0.055) / 1.055) (12 / 5)).
Proof.
  intro H. unfold dec_srgb_t. xs. rewrite Rleb_false by (q2r; lra). rewrite x_div by (q2r; lra).
  rewrite x_powf; [|q2r; lra]. apply (f_equal Fin).
  replace (Q2R 2.4) with (12 / 5) by (q2r; lra).
  replace ((f + Q2R 0.055) / Q2R 1.055) with ((f + 0.055) / 1.055) by (q2r; lra). reflexivity.
Qed.
Lemma enc_709_lin x : x <= 0.018 -> enc_bt709_t (Fin x) = Fin (4.5 * x).
Proof.
  intro H. unfold enc_bt709_t. xs. rewrite Rleb_true by (q2r; lra). apply (f_equal Fin). q2r; lra.
Qed.
Lemma enc_709_pow x : 0.018 < x -> enc_bt709_t (Fin x) = Fin (1.099 * Rpower x (9 / 20) - 0.099).
Proof.
  intro H. unfold enc_bt709_t. xs. rewrite Rleb_false by (q2r; lra).
  rewrite x_powf by lra. xs. apply (f_equal Fin).
  replace (Q2R 0.45) with (9 / 20) by (q2r; lra). q2r. lra.
Qed.
Lemma dec_709_lin f : f <= 0.081 -> dec_bt709_t (Fin f) = Fin (f / 4.5).
Proof.
  intro H. unfold dec_bt709_t. xs. rewrite Rleb_true by (q2r; lra). rewrite x_div by (q2r; lra).
  apply (f_equal Fin). q2r; lra.
Qed.
Lemma dec_709_pow f : 0.081 < f -> dec_bt709_t (Fin f) = Fin (Rpower ((f + 0.099) / 1.099) (20 / 9)).
Proof.
  intro H. unfold dec_bt709_t. xs. rewrite Rleb_false by (q2r; lra). rewrite !x_div by (q2r; lra).
  rewrite x_powf; [|q2r; lra]. apply (f_equal Fin).
  replace (Q2R 1.0 / Q2R 0.45) with (20 / 9) by (q2r; field).
  replace ((f + Q2R 0.099) / Q2R 1.099) with ((f + 0.099) / 1.099) by (q2r; lra). reflexivity.
Qed.
Lemma enc_2020_lin x : x < 0.018 -> enc_bt2020_t (Fin x) = Fin (4.5 * x).
Proof.
  intro H. unfold enc_bt2020_t. xs. rewrite Rltb_true by (q2r; lra). apply (f_equal Fin). q2r; lra.
Qed.
Lemma enc_2020_pow x : 0.018 <= x -> enc_bt2020_t (Fin x) = Fin (1.099 * Rpower x (9 / 20) - 0.099).
Proof.
  intro H. unfold enc_bt2020_t. xs. rewrite Rltb_false by (q2r; lra).
  rewrite x_powf by lra. xs. apply (f_equal Fin).
  replace (Q2R 0.45) with (9 / 20) by (q2r; lra). q2r. lra.
Qed.
Lemma dec_2020_lin f : f < 0.081 -> dec_bt2020_t (Fin f) = Fin (f / 4.5).
Proof.
  intro H. unfold dec_bt2020_t. xs. rewrite Rltb_true by (q2r; lra). rewrite x_div by (q2r; lra).
  apply (f_equal Fin). q2r; lra.
Qed.
Lemma dec_2020_pow f : 0.081 <= f -> dec_bt2020_t (Fin f) = Fin (Rpower ((f + 0.099) / 1.099) (20 / 9)).
Proof.
  intro H. unfold dec_bt2020_t. xs. rewrite Rltb_false by (q2r; lra). rewrite !x_div by (q2r; lra).
  rewrite x_powf; [|q2r; lra]. apply (f_equal Fin).
  replace (Q2R 1.0 / Q2R 0.45) with (20 / 9) by (q2r; field).
  replace ((f + (Q2R 1.099 - Q2R 1.0)) / Q2R 1.099) with ((f + 0.099) / 1.099) by (q2r; lra). reflexivity.
Qed.
Lemma enc_alexa_lin x : x <= 0.010591 -> enc_alexa_t (Fin x) = Fin (5.367655 * x + 0.092809).
Proof.
  intro H. unfold enc_alexa_t. xs. rewrite Rltb_false by (q2r; lra). apply (f_equal Fin). q2r; lra.
Qed.
Lemma enc_alexa_log x : 0.010591 < x ->
  enc_alexa_t (Fin x) = Fin (0.247190 * (ln (5.555556 * x + 0.052272) / ln 10) + 0.385537).
Proof.
  intro H. unfold enc_alexa_t. xs. rewrite Rltb_true by (q2r; lra).
  rewrite x_log10 by (q2r; lra). xs. apply (f_equal Fin).
  replace (Q2R 5.555556 * x + Q2R 0.052272) with (5.555556 * x + 0.052272) by (q2r; lra). q2r; lra.
Qed.
Lemma dec_alexa_lin t : t <= 0.149658 -> dec_alexa_t (Fin t) = Fin ((t - 0.092809) / 5.367655).
Proof.
  intro H. unfold dec_alexa_t. xs. rewrite Rltb_false by (q2r; lra). rewrite x_div by (q2r; lra).
  apply (f_equal Fin). q2r; lra.
Qed.
Lemma dec_alexa_log t : 0.149658 < t ->
  dec_alexa_t (Fin t) = Fin ((Rpower 10 ((t - 0.385537) / 0.247190) - 0.052272) / 5.555556).
Proof.
  intro H. unfold dec_alexa_t. xs. rewrite Rltb_true by (q2r; lra). rewrite x_div by (q2r; lra).
  rewrite x_powf by (q2r; lra). xs. rewrite x_div by (q2r; lra). apply (f_equal Fin).
  replace (Q2R 10.0) with 10 by (q2r; lra).
  replace ((t - Q2R 0.385537) / Q2R 0.247190) with ((t - 0.385537) / 0.247190) by (q2r; lra). q2r; lra.
Qed.
End Transfer.

(* ---- numbers ---- *)
(* where the sRGB decoder switches to the power branch; slightly above the encoder's switch *)
Definition srgb_knee : R := Rpower ((0.040449936 + 0.055) / 1.055) (12 / 5).
Lemma srgb_knee_bounds : 0.003130802 < srgb_knee < 0.003130803.
Proof.
  unfold srgb_knee. replace ((0.040449936 + 0.055) / 1.055) with (95449936 / 1055000000) by lra. split.
  - apply (lt_frac_power _ _ 12 5); [lra|lra|cbn; lra|lia|]. lra.
  - apply (gt_frac_power _ _ 12 5); [lra|lra|cbn; lra|lia|]. lra.
Qed.
(* what the BT.709/BT.2020 power branch gives at the switch *)
Definition bt709_knee : R := 1.099 * Rpower 0.018 (9 / 20) - 0.099.
Lemma bt709_knee_bounds : 0.081247 < bt709_knee < 0.081248.
Proof.
  unfold bt709_knee.
  assert ((0.081247 + 0.099) / 1.099 < Rpower 0.018 (9 / 20)).
  { apply (lt_frac_power _ _ 9 20); [lra|lra|cbn; lra|lia|]. lra. }
  assert (Rpower 0.018 (9 / 20) < (0.081248 + 0.099) / 1.099).
  { apply (gt_frac_power _ _ 9 20); [lra|lra|cbn; lra|lia|]. lra. }
  lra.
Qed.

(* ALEXA: 10^1147 is just above 9^1202, which pins log10 9 from below *)
Lemma ln9_ge_2 : 2 <= ln 9.
Proof.
  replace 9 with (3 * 3) by lra. rewrite ln_mult by lra.
  assert (1 <= ln 3); [|lra].
  rewrite <- (ln_exp 1). destruct exp_le_3 as [H|E].
  - left. apply ln_increasing; [apply exp_pos|exact H].
  - rewrite E. apply Rle_refl.
Qed.
Lemma ln10_ln9 : 1147 * ln 10 <= 1202 * ln 9 + 0.0011603788.
Proof.
  assert (P : IZR 10 ^ 1147 * IZR 10000000000 <= IZR 9 ^ 1202 * IZR 10011603788).
  { rewrite !pow_IZR, <- !mult_IZR. apply IZR_le. apply Z.leb_le. vm_compute. reflexivity. }
  assert (L : ln (IZR 10 ^ 1147) <= ln (IZR 9 ^ 1202 * 1.0011603788)).
  { assert (A : 0 < IZR 10 ^ 1147) by (apply pow_lt; lra).
    assert (B : IZR 10 ^ 1147 <= IZR 9 ^ 1202 * 1.0011603788).
    { set (u := IZR 10 ^ 1147) in *. set (v := IZR 9 ^ 1202) in *. clearbody u v. lra. }
    destruct B as [B|E]; [left; apply ln_increasing; assumption | rewrite <- E; apply Rle_refl]. }
  rewrite ln_mult in L; [|apply pow_lt; lra|lra].
  rewrite !ln_pow in L by lra.
  assert (Ln : ln 1.0011603788 <= 0.0011603788).
  { assert (X : 1 + 0.0011603788 < exp 0.0011603788) by (apply exp_ineq1; lra).
    rewrite <- (ln_exp 0.0011603788). left. apply ln_increasing; [lra|].
    replace 1.0011603788 with (1 + 0.0011603788) by lra. exact X. }
  replace (INR 1147) with 1147 in L by (rewrite INR_IZR_INZ; reflexivity).
  replace (INR 1202) with 1202 in L by (rewrite INR_IZR_INZ; reflexivity).
  lra.
Qed.
Lemma ln10_pos : 0 < ln 10.
Proof. rewrite <- ln_1. apply ln_increasing; lra. Qed.

(* the logarithm branch is below the linear one at the switch *)
Lemma alexa_log9 : (0.385537 - 0.149657834105) / 0.247190 * ln 10 < ln 9.
Proof. pose proof ln10_ln9. pose proof ln9_ge_2. pose proof ln10_pos. lra. Qed.

Definition alexa_knee : R := (Rpower 10 ((0.149658 - 0.385537) / 0.247190) - 0.052272) / 5.555556.
Lemma alexa_ninth t : 0.149657834105 <= t -> 1 / 9 < Rpower 10 ((t - 0.385537) / 0.247190).
Proof.
  intro H. rewrite <- (exp_ln (1 / 9)) by lra. unfold Rpower. apply exp_increasing.
  unfold Rdiv at 1. rewrite Rmult_1_l, ln_Rinv by lra. pose proof alexa_log9. pose proof ln10_pos.
  assert ((0.149657834105 - 0.385537) / 0.247190 * ln 10 <= (t - 0.385537) / 0.247190 * ln 10).
  { apply Rmult_le_compat_r; lra. }
  lra.
Qed.
Lemma alexa_knee_bound : 0.010591031 < alexa_knee.
Proof. unfold alexa_knee. pose proof (alexa_ninth 0.149658 ltac:(lra)). lra. Qed.
(* from above, crudely: 10^0.954 > 8.99 *)
Lemma alexa_knee_upper : alexa_knee < 0.0107.
Proof.
  unfold alexa_knee.
  assert (G : Rpower 10 ((0.149658 - 0.385537) / 0.247190) < 0.1117); [|lra].
  apply Rlt_trans with (Rpower 10 (- (20 / 21))).
  - unfold Rpower. apply exp_increasing. apply Rmult_lt_compat_r; [apply ln10_pos|]. lra.
  - rewrite Rpower_Ropp. apply (Rmult_lt_reg_l (Rpower 10 (20 / 21))); [apply Rpower_gt0|].
    rewrite Rinv_r by (apply Rgt_not_eq, Rpower_gt0).
    assert (8.96 < Rpower 10 (20 / 21)).
    { apply (lt_frac_power _ _ 20 21); [lra|lra|cbn; lra|lia|]. lra. }
    lra.
Qed.
