(* C85: how far the transfer functions are from undoing each other, exact arithmetic *)
From Coq Require Import Reals ZArith QArith Qreals Lra Lia List Bool.
From Flocq Require Import Core.
From Verif Require Import Outcome RealOps MathModel ColorModel SpaceModel XReal SpecLin TransferProofs PropTransfer.
Import ListNotations.
Open Scope R_scope.

Section P.
Context {K : XConst}.

(* f returns a number within e of its argument x *)
Definition near (e : R) (f : xr -> xr) (x : R) : Prop := exists y, f (Fin x) = Fin y /\ Rabs (y - x) <= e.
Lemma near_exact e f x : 0 <= e -> f (Fin x) = Fin x -> near e f x.
Proof. intros H E. exists x. split; [exact E|]. replace (x - x) with 0 by ring. rewrite Rabs_R0. exact H. Qed.
Lemma near_weak e e' f x : e <= e' -> near e f x -> near e' f x.
Proof. intros H (y & E & B). exists y. split; [exact E|]. lra. Qed.

Lemma srgb_near x : near 1e-8 (fun v => dec_srgb_t (enc_srgb_t v)) x.
Proof.
  destruct (Rle_dec x 0.0031308) as [H|H]; [apply near_exact; [lra|apply C30_srgb_decode_encode_partial; left; exact H]|].
  destruct (Rle_dec 0.003130803 x) as [G|G]; [apply near_exact; [lra|apply C30_srgb_decode_encode_partial; right; exact G]|].
  apply Rnot_le_lt in H. apply Rnot_le_lt in G. unfold near. rewrite enc_srgb_pow by exact H.
  set (t := 1.055 * Rpower x (5 / 12) - 0.055).
  destruct (Rle_dec t 0.040449936) as [L|L].
  - rewrite dec_srgb_lin by exact L. eexists. split; [reflexivity|].
    assert (B : (0.04044988 + 0.055) / 1.055 < Rpower x (5 / 12)).
    { apply Rlt_trans with (Rpower 0.0031308 (5 / 12)); [|apply Rpower_lt; lra].
      apply (lt_frac_power _ _ 5 12); [lra|lra|cbn; lra|lia|]. lra. }
    apply Rabs_le. unfold t in *. lra.
  - apply Rnot_le_lt in L. rewrite dec_srgb_pow by exact L. eexists. split; [reflexivity|].
    unfold t. replace ((1.055 * Rpower x (5 / 12) - 0.055 + 0.055) / 1.055) with (Rpower x (5 / 12)) by lra.
    rewrite Rpower_inv by lra. replace (x - x) with 0 by ring. rewrite Rabs_R0. lra.
Qed.

(* the power segment of the BT.709 and BT.2020 decoders, just above the switch *)
Lemma bt_window f : 0.081 <= f < 0.081248 ->
  let x := Rpower ((f + 0.099) / 1.099) (20 / 9) in x < 0.018002 /\ (0.018 < x -> f - 1e-5 < 1.099 * Rpower x (9 / 20) - 0.099 < f + 1e-5)
  /\ Rabs (4.5 * x - f) <= 3.2e-4.
Proof.
  intros H x.
  assert (U : x < 0.018002).
  { apply Rlt_trans with (Rpower ((0.081248 + 0.099) / 1.099) (20 / 9)); [apply Rpower_lt; lra|].
    apply (gt_frac_power _ _ 20 9); [lra|lra|cbn; lra|lia|]. lra. }
  split; [exact U|]. split.
  { intros _. unfold x. rewrite Rpower_inv by lra. lra. }
  assert (M : forall c, 0.081 <= c <= f -> Rpower ((c + 0.099) / 1.099) (20 / 9) <= x).
  { intros c Hc. apply Rpower_mono; lra. }
  apply Rabs_le. split; [|lra].
  destruct (Rle_dec 0.08119 f) as [A|A].
  { assert (0.0179870 < Rpower ((0.08119 + 0.099) / 1.099) (20 / 9)).
    { apply (lt_frac_power _ _ 20 9); [lra|lra|cbn; lra|lia|]. lra. }
    specialize (M 0.08119 ltac:(lra)). lra. }
  apply Rnot_le_lt in A. destruct (Rle_dec 0.08113 f) as [B|B].
  { assert (0.0179738 < Rpower ((0.08113 + 0.099) / 1.099) (20 / 9)).
    { apply (lt_frac_power _ _ 20 9); [lra|lra|cbn; lra|lia|]. lra. }
    specialize (M 0.08113 ltac:(lra)). lra. }
  apply Rnot_le_lt in B. destruct (Rle_dec 0.08106 f) as [C|C].
  { assert (0.0179583 < Rpower ((0.08106 + 0.099) / 1.099) (20 / 9)).
    { apply (lt_frac_power _ _ 20 9); [lra|lra|cbn; lra|lia|]. lra. }
    specialize (M 0.08106 ltac:(lra)). lra. }
  apply Rnot_le_lt in C.
  assert (0.017945 < Rpower ((0.081 + 0.099) / 1.099) (20 / 9)).
  { apply (lt_frac_power _ _ 20 9); [lra|lra|cbn; lra|lia|]. lra. }
  specialize (M 0.081 ltac:(lra)). lra.
Qed.
Lemma bt709_near f : near 3.2e-4 (fun v => enc_bt709_t (dec_bt709_t v)) f.
Proof.
  destruct (Rle_dec f 0.081) as [H|H]; [apply near_exact; [lra|apply C31_bt709_encode_decode_partial; left; exact H]|].
  destruct (Rle_dec 0.081248 f) as [G|G]; [apply near_exact; [lra|apply C31_bt709_encode_decode_partial; right; exact G]|].
  apply Rnot_le_lt in H. apply Rnot_le_lt in G. unfold near. rewrite dec_709_pow by exact H.
  destruct (bt_window f ltac:(lra)) as (U & P & L). cbv zeta in *. set (x := Rpower _ _) in *.
  destruct (Rle_dec x 0.018) as [W|W].
  - rewrite enc_709_lin by exact W. eexists. split; [reflexivity|exact L].
  - apply Rnot_le_lt in W. rewrite enc_709_pow by exact W. eexists. split; [reflexivity|]. apply Rabs_le. specialize (P W). lra.
Qed.
Lemma bt2020_near f : near 3.2e-4 (fun v => enc_bt2020_t (dec_bt2020_t v)) f.
Proof.
  destruct (Rlt_dec f 0.081) as [H|H]; [apply near_exact; [lra|apply C32_bt2020_encode_decode_partial; left; exact H]|].
  destruct (Rle_dec 0.081248 f) as [G|G]; [apply near_exact; [lra|apply C32_bt2020_encode_decode_partial; right; exact G]|].
  apply Rnot_lt_le in H. apply Rnot_le_lt in G. unfold near. rewrite dec_2020_pow by exact H.
  destruct (bt_window f ltac:(lra)) as (U & P & L). cbv zeta in *. set (x := Rpower _ _) in *.
  destruct (Rlt_dec x 0.018) as [W|W].
  - rewrite enc_2020_lin by exact W. eexists. split; [reflexivity|exact L].
  - apply Rnot_lt_le in W. rewrite enc_2020_pow by exact W. eexists. split; [reflexivity|]. apply Rabs_le.
    destruct W as [W|E]; [specialize (P W); lra|]. unfold x in *. rewrite Rpower_inv in * by lra. lra.
Qed.

(* the logarithmic segment of the ALEXA encoder at its start *)
Lemma alexa_low x : 0.010591 <= x -> 0.14958 < 0.247190 * (ln (5.555556 * x + 0.052272) / ln 10) + 0.385537.
Proof.
  intro H. apply alexa_enc_log_gt; [lra|].
  apply Rlt_trans with (Rpower 10 (- (21 / 22))).
  - unfold Rpower. apply exp_increasing. apply Rmult_lt_compat_r; [apply ln10_pos|]. lra.
  - rewrite Rpower_Ropp. apply (Rmult_lt_reg_l (Rpower 10 (21 / 22))); [apply Rpower_gt0|].
    rewrite Rinv_r by (apply Rgt_not_eq, Rpower_gt0).
    assert (9.002 < Rpower 10 (21 / 22)).
    { apply (lt_frac_power _ _ 21 22); [lra|lra|cbn; lra|lia|]. lra. }
    nra.
Qed.
Lemma alexa_near_dec x : near 1.3e-4 (fun v => dec_alexa_t (enc_alexa_t v)) x.
Proof.
  destruct (Rle_dec x 0.010591) as [H|H]; [apply near_exact; [lra|apply C33_alexa_decode_encode_partial; left; exact H]|].
  destruct (Rle_dec 0.0107 x) as [G|G]; [apply near_exact; [lra|apply C33_alexa_decode_encode_partial; right; exact G]|].
  apply Rnot_le_lt in H. apply Rnot_le_lt in G. unfold near. rewrite enc_alexa_log by exact H.
  pose proof (alexa_low x ltac:(lra)) as L. set (t := 0.247190 * _ + _) in *.
  destruct (Rle_dec t 0.149658) as [W|W].
  - rewrite dec_alexa_lin by exact W. eexists. split; [reflexivity|]. apply Rabs_le. lra.
  - apply Rnot_le_lt in W. rewrite dec_alexa_log by exact W. eexists. split; [reflexivity|].
    unfold t. rewrite alexa_log_pow by lra. apply Rabs_le. lra.
Qed.
Lemma alexa_near_enc t : near 1e-4 (fun v => enc_alexa_t (dec_alexa_t v)) t.
Proof.
  destruct (Rle_dec t 0.149657834105) as [H|H]; [apply near_exact; [lra|apply C33_alexa_encode_decode_partial; left; exact H]|].
  destruct (Rlt_dec 0.149658 t) as [G|G]; [apply near_exact; [lra|apply C33_alexa_encode_decode_partial; right; exact G]|].
  apply Rnot_le_lt in H. apply Rnot_lt_le in G. unfold near. rewrite dec_alexa_lin by exact G.
  set (x := (t - 0.092809) / 5.367655). destruct (Rle_dec x 0.010591) as [W|W].
  - rewrite enc_alexa_lin by exact W. eexists. split; [reflexivity|]. apply Rabs_le. unfold x. lra.
  - apply Rnot_le_lt in W. rewrite enc_alexa_log by exact W. eexists. split; [reflexivity|].
    pose proof (alexa_low x ltac:(lra)) as L.
    assert (U : 0.247190 * (ln (5.555556 * x + 0.052272) / ln 10) + 0.385537 <= 0.149658).
    { destruct (Rle_dec (0.247190 * (ln (5.555556 * x + 0.052272) / ln 10) + 0.385537) 0.149658) as [Q|Q]; [exact Q|].
      apply Rnot_le_lt in Q. exfalso. apply alexa_enc_log_gt in Q; [|lra]. pose proof alexa_knee_bound as B. unfold alexa_knee in B.
      unfold x in Q. lra. }
    apply Rabs_le. lra.
Qed.

Theorem C85_curves_nearly_inverse : forall x : R,
  near 1e-8 (fun v => dec_srgb_t (enc_srgb_t v)) x /\ near 0 (fun v => enc_srgb_t (dec_srgb_t v)) x
  /\ near 0 (fun v => dec_bt709_t (enc_bt709_t v)) x /\ near 3.2e-4 (fun v => enc_bt709_t (dec_bt709_t v)) x
  /\ near 0 (fun v => dec_bt2020_t (enc_bt2020_t v)) x /\ near 3.2e-4 (fun v => enc_bt2020_t (dec_bt2020_t v)) x
  /\ near 1.3e-4 (fun v => dec_alexa_t (enc_alexa_t v)) x /\ near 1e-4 (fun v => enc_alexa_t (dec_alexa_t v)) x.
Proof.
  intro x. split; [apply srgb_near|]. split; [apply near_exact; [lra|apply C30_srgb_encode_decode]|].
  split; [apply near_exact; [lra|apply C31_bt709_decode_encode]|]. split; [apply bt709_near|].
  split; [apply near_exact; [lra|apply C32_bt2020_decode_encode]|]. split; [apply bt2020_near|].
  split; [apply alexa_near_dec|apply alexa_near_enc].
Qed.

(* the bound for BT.709 and BT.2020 is the right order of magnitude *)
Theorem C85_bound_is_needed : exists f y z : R,
  enc_bt709_t (dec_bt709_t (Fin f)) = Fin y /\ enc_bt2020_t (dec_bt2020_t (Fin f)) = Fin z
  /\ 2.3e-4 < Rabs (y - f) /\ 2.3e-4 < Rabs (z - f).
Proof.
  exists 0.08124. assert (G : Rpower ((0.08124 + 0.099) / 1.099) (20 / 9) < 0.017999).
  { apply (gt_frac_power _ _ 20 9); [lra|lra|cbn; lra|lia|]. lra. }
  rewrite dec_709_pow, dec_2020_pow by lra. rewrite enc_709_lin, enc_2020_lin by lra. do 2 eexists. do 2 (split; [reflexivity|]).
  rewrite Rabs_left by lra. lra.
Qed.

(* the built-in spaces, by name *)
Definition builtin (s : color_space xr) : Prop :=
  s = SRGB \/ SRGB_DRV = Ret s \/ ITUR_BT709 = Ret s \/ ITUR_BT2020 = Ret s \/ DCI_P3 = Ret s \/ DCI_P3_D65 = Ret s
  \/ s = ACES \/ ACES_CG = Ret s \/ s = ADOBE_RGB_1998 \/ s = ALEXA_WIDE_GAMUT.
(* c is, channel by channel, within e of the colour (r, g, b) *)
Definition near3 (e : R) (c : rgbf xr) (r g b : R) : Prop :=
  exists r' g' b', c = FinRgb (r', g', b') /\ Rabs (r' - r) <= e /\ Rabs (g' - g) <= e /\ Rabs (b' - b) <= e.
Lemma near3_exact e c r g b : 0 <= e -> c = FinRgb (r, g, b) -> near3 e c r g b.
Proof.
  intros H ->. exists r, g, b. split; [reflexivity|].
  replace (r - r) with 0 by ring. replace (g - g) with 0 by ring. replace (b - b) with 0 by ring. rewrite Rabs_R0. auto.
Qed.
Lemma near3_channels e (f g : xr -> xr) r s b : (forall x, near e (fun v => g (f v)) x) ->
  near3 e (per_channel g (per_channel f (FinRgb (r, s, b)))) r s b.
Proof.
  intro H. destruct (H r) as (r' & E1 & B1). destruct (H s) as (s' & E2 & B2). destruct (H b) as (b' & E3 & B3).
  exists r', s', b'. unfold per_channel, FinRgb. cbn [rgb_r rgb_g rgb_b]. rewrite E1, E2, E3. repeat split; assumption.
Qed.
Ltac drv H := unfold cs_new in H; destruct (mat_inverse _); [|discriminate]; cbn [unwrap obind] in H; injection H as <-.

Theorem C85_spaces_nearly_lossless : forall (s : color_space xr) (r g b : R), builtin s -> 0 <= r -> 0 <= g -> 0 <= b ->
  near3 3.2e-4 (cs_decode s (cs_encode s (FinRgb (r, g, b)))) r g b
  /\ near3 3.2e-4 (cs_encode s (cs_decode s (FinRgb (r, g, b)))) r g b.
Proof.
  assert (TOL : forall e f x, e <= 3.2e-4 -> near e f x -> near 3.2e-4 f x) by (intros; eapply near_weak; eassumption).
  intros s r g b H Hr Hg Hb. destruct H as [->|[H|[H|[H|[H|[H|[->|[H|[->| ->]]]]]]]]].
  - split; [apply (near3_channels 3.2e-4 enc_srgb_t dec_srgb_t)|apply (near3_channels 3.2e-4 dec_srgb_t enc_srgb_t)];
      intro x; destruct (C85_curves_nearly_inverse x) as (A & B & _); eapply TOL; try eassumption; lra.
  - unfold SRGB_DRV in H; drv H.
    split; [apply (near3_channels 3.2e-4 enc_srgb_t dec_srgb_t)|apply (near3_channels 3.2e-4 dec_srgb_t enc_srgb_t)];
      intro x; destruct (C85_curves_nearly_inverse x) as (A & B & _); eapply TOL; try eassumption; lra.
  - unfold ITUR_BT709 in H; drv H.
    split; [apply (near3_channels 3.2e-4 enc_bt709_t dec_bt709_t)|apply (near3_channels 3.2e-4 dec_bt709_t enc_bt709_t)];
      intro x; destruct (C85_curves_nearly_inverse x) as (_ & _ & A & B & _); eapply TOL; try eassumption; lra.
  - unfold ITUR_BT2020 in H; drv H.
    split; [apply (near3_channels 3.2e-4 enc_bt2020_t dec_bt2020_t)|apply (near3_channels 3.2e-4 dec_bt2020_t enc_bt2020_t)];
      intro x; destruct (C85_curves_nearly_inverse x) as (_ & _ & _ & _ & A & B & _); eapply TOL; try eassumption; lra.
  - destruct (C34_power_law_roundtrip s 2.6 (or_introl (conj H eq_refl))) as (P & _). destruct (P r g b Hr Hg Hb).
    split; apply near3_exact; (lra || assumption).
  - destruct (C34_power_law_roundtrip s 2.6 (or_intror (or_introl (conj H eq_refl)))) as (P & _). destruct (P r g b Hr Hg Hb).
    split; apply near3_exact; (lra || assumption).
  - split; (apply near3_exact; [lra|reflexivity]).
  - destruct (C34_linear_identity xr _ (FinRgb (r, g, b))) as (P & _). destruct (P s H) as [E1 E2].
    rewrite E1, E2, E1. split; (apply near3_exact; [lra|reflexivity]).
  - destruct (C34_power_law_roundtrip ADOBE_RGB_1998 2.19921875 (or_intror (or_intror (conj eq_refl eq_refl)))) as (P & _).
    destruct (P r g b Hr Hg Hb). split; apply near3_exact; (lra || assumption).
  - split; [apply (near3_channels 3.2e-4 enc_alexa_t dec_alexa_t)|apply (near3_channels 3.2e-4 dec_alexa_t enc_alexa_t)];
      intro x; destruct (C85_curves_nearly_inverse x) as (_ & _ & _ & _ & _ & _ & A & B); eapply TOL; try eassumption; lra.
Qed.

Example C85_example : near3 3.2e-4 (cs_decode SRGB (cs_encode SRGB (FinRgb (0.003130801, 0.5, 1)))) 0.003130801 0.5 1
  /\ cs_decode SRGB (cs_encode SRGB (FinRgb (0.003130801, 0.5, 1))) <> FinRgb (0.003130801, 0.5, 1).
Proof.
  split; [apply C85_spaces_nearly_lossless; [left; reflexivity|lra..]|].
  intro E. apply (f_equal rgb_r) in E. change (dec_srgb_t (enc_srgb_t (Fin 0.003130801)) = Fin 0.003130801) in E. revert E.
  pose proof srgb_knee_bounds. rewrite enc_srgb_pow by lra.
  pose proof (srgb_power_small 0.003130801 ltac:(lra) ltac:(lra)).
  rewrite dec_srgb_lin by lra. intro E. injection E as E. lra.
Qed.
End P.
