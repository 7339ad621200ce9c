(* C103: the ALEXA LogC curve in floating point: code round trips, and images written in ALEXA wide gamut *)
From Coq Require Import Reals ZArith QArith Qreals Lra Lia Bool List.
From Flocq Require Import Core BinarySingleNaN.
From Verif Require Import Outcome RealOps MathModel ColorModel SpaceModel TransformModel XReal SpecLin FloatInst FloatProofs ErrProofs TransferProofs PropPixel RelErr CurveProofs PropCurve PropSelf MatProofs ConvMat ConvProofs PropConv PropRef LogProofs.
Import ListNotations.
Open Scope R_scope.

(* the exact matrices of the nine spaces to ALEXA wide gamut *)
Definition to_alexa_i : list imat := Eval vm_compute in map (fun q => over_common (qpair q qalexa)) qspaces.
Lemma to_alexa_same : Forall2 (fun i q => same_mat i (qpair q qalexa) = true) to_alexa_i qspaces.
Proof. unfold to_alexa_i, qspaces. repeat apply Forall2_cons; [..|apply Forall2_nil]; vm_compute; reflexivity. Qed.

Section Fmt.
Context (prec emax : Z) {Hp : Prec_gt_0 prec} {He : Prec_lt_emax prec emax}.
Notation fl := (binary_float prec emax).
Notation u := (bpow radix2 (- prec)).
Context (P5 : (24 <= prec)%Z) (E5 : (128 <= emax)%Z).
Context (L : libm fl) (lit : Q -> fl) (LO : lit_ok prec emax lit) (TN : (good prec emax 60 (lit 10.0%Q) && (zent prec emax 60 (lit 10.0%Q) =? 10 * 2 ^ 60)%Z)%bool = true).
Notation ops := (b_ops prec emax L lit).
Notation alexa := (@ALEXA_WIDE_GAMUT _ ops).

(* a colour of integer codes, decoded and encoded again, is itself *)
Definition codes_kept : Prop := forall M c, (1 <= M <= 65535)%Z -> (0 <= rgb_r c <= M)%Z -> (0 <= rgb_g c <= M)%Z -> (0 <= rgb_b c <= M)%Z ->
  @rgb_to_uint _ ops M (cs_encode alexa (cs_decode alexa (@rgb_of_uint _ ops M c))) = c.
(* an image of m bits per channel in each of the nine spaces, written with n bits per channel in ALEXA wide gamut *)
Definition agree_alexa {K : XConst} (limits : list (Z * Z)) : Prop := forall i, (i < 9)%nat -> exists sf sx,
  nth_error (@spaces _ ops) i = Some (Ret sf) /\ nth_error (@spaces _ xr_ops) i = Some (Ret sx) /\
  forall m n d w, (1 <= m <= 16)%Z -> In (d, w) limits -> (1 <= n <= d)%Z -> same_image prec emax L lit w (depth m) (depth n) sf alexa sx ALEXA_WIDE_GAMUT.

Lemma ten : is_finite (lit 10.0%Q) = true /\ B2R (lit 10.0%Q) = 10.
Proof.
  apply andb_true_iff in TN. destruct TN as [G V]. destruct (zent_ok prec emax 60 _ ltac:(lia) G) as [F W]. split; [exact F|]. apply Z.eqb_eq in V. rewrite V, mult_IZR in W. apply (Rmult_eq_reg_r (IZR (2 ^ 60))); [lra|]. apply IZR_neq. discriminate.
Qed.
Lemma kept : log10_ok prec emax (l_log10 L) -> powf_ten prec emax (l_powf L) -> codes_kept.
Proof.
  intros LG PT M [r g b] HM R1 G1 B1. cbn [rgb_r rgb_g rgb_b] in *.
  change (Rgb (@quantize _ ops M (@enc_alexa_t _ ops (@dec_alexa_t _ ops (@dequantize _ ops M r)))) (@quantize _ ops M (@enc_alexa_t _ ops (@dec_alexa_t _ ops (@dequantize _ ops M g)))) (@quantize _ ops M (@enc_alexa_t _ ops (@dec_alexa_t _ ops (@dequantize _ ops M b)))) = Rgb r g b).
  rewrite !(code_same prec emax P5 E5 L lit LO ten LG PT) by assumption. reflexivity.
Qed.
Definition fit_alexa (D : Z) : bool :=
  forallb (fun a => match fst (fst a) with
    | Ret s => match @rgb_to_rgb_matrix _ ops s alexa with Ret m => mat_fits prec emax 200 (kerr (snd (fst a))) D m (snd a) | _ => false end
    | _ => false end) (combine (combine (@spaces _ ops) kinds) to_alexa_i).
Theorem alexa_agree {K : XConst} {KO : XConstOk K} D limits : log10_ok prec emax (l_log10 L) -> powf_ok prec emax (l_powf L) -> powf_zero prec emax (l_powf L) -> powf_wide prec emax (l_powf L) -> fit_alexa D = true -> 0 <= IZR D * u <= 0.001 ->
  (forall d w n, In (d, w) limits -> (1 <= n <= d)%Z -> (depth n <= 65535)%Z /\ IZR (depth n) * (6.2 * (IZR D * u) + 2e-6 + 103 * u + u) < IZR w) -> agree_alexa limits.
Proof.
  intros LG PW PZ PV FC DU TG i Hi.
  destruct (some_at (@spaces _ ops) i Hi) as [osf Asf]. destruct (some_at (@spaces _ xr_ops) i Hi) as [osx Asx]. destruct (some_at qspaces i Hi) as [qa Aqa]. destruct (some_at kinds i Hi) as [ka Aka]. destruct (some_at to_alexa_i i Hi) as [ia Aia].
  destruct (nth_Forall2 _ _ _ _ _ _ all_described Aqa Asx) as (sx & -> & Dx).
  unfold fit_alexa in FC. rewrite forallb_forall in FC. specialize (FC _ (nth_error_In _ _ (nth_combine _ _ _ _ _ (nth_combine _ _ _ _ _ Asf Aka) Aia))). cbn [fst snd] in FC.
  destruct osf as [sf| |]; try discriminate. destruct (@rgb_to_rgb_matrix _ ops sf alexa) as [m| |] eqn:EM; try discriminate.
  exists sf, sx. split; [exact Asf|]. split; [exact Asx|]. intros mm n d w Hm Hd Hn. destruct (TG d w n Hd Hn) as [N1 N2].
  assert (FW : forall x, In x qspaces -> fit_white (q_white x) = true) by (apply Forall_forall; exact all_fit).
  destruct (nth_Forall2 _ _ _ 7%nat _ _ (refs_described KO) eq_refl eq_refl) as (ax & AX & DA). injection AX as <-.
  pose proof (pair_exact qa qalexa sx ALEXA_WIDE_GAMUT Dx DA (FW _ (nth_error_In _ _ Aqa)) eq_refl) as EX. rewrite <- (same_ok _ _ (nth_Forall2 _ _ _ _ _ _ to_alexa_same Aia Aqa)) in EX.
  refine (image_ok prec emax P5 E5 L lit w (depth mm) (depth n) sf alexa sx ALEXA_WIDE_GAMUT (@kdec _ ops ka) (@enc_alexa_t _ ops) (kdec ka) enc_alexa_t m ia 200 (kerr ka) D _ _ _ _ EM EX ltac:(lia) _ FC _ _).
  - eexists. exact (nth_Forall2 _ _ _ _ _ _ all_act Aka Asf _ eq_refl).
  - exists (@dec_alexa_t _ ops). split; reflexivity.
  - eexists. exact (nth_Forall2 _ _ _ _ _ _ all_act Aka Asx _ eq_refl).
  - exists dec_alexa_t. split; reflexivity.
  - destruct ka; cbn [kerr]; lia.
  - apply (src_kind prec emax P5 E5 L lit LO PW PZ PV); [exact (nth_error_In _ _ Aka)|apply depth_in, Hm].
  - intros v y F Y H. destruct (enc_close prec emax P5 E5 L lit LO LG v y _ F Y DU H) as [G E]. rewrite (proj1 alexa_x). refine (two_codes prec emax P5 L lit (depth n) _ _ _ w _ G E N2).
    split; [|exact N1]. pose proof (depth_le n n ltac:(lia)). lia.
Qed.
End Fmt.

Notation lit32 := (fun q => f64_to_f32 (b_of_Q 53 1024 q)).
Notation lit64 := (b_of_Q 53 1024).
Lemma fit_alexa32 (L : libm f32) : fit_alexa 24 128 L lit32 95 = true.
Proof. vm_compute. reflexivity. Qed.
Lemma fit_alexa64 (L : libm f64) : fit_alexa 53 1024 L lit64 95 = true.
Proof. vm_compute. reflexivity. Qed.

Theorem C103_codes_f32 (L : libm f32) : log10_ok 24 128 (l_log10 L) -> powf_ten 24 128 (l_powf L) -> codes_kept 24 128 L lit32.
Proof. apply (kept 24 128 ltac:(lia) ltac:(lia) L _ lit32_ok). vm_compute. reflexivity. Qed.
Theorem C103_codes_f64 (L : libm f64) : log10_ok 53 1024 (l_log10 L) -> powf_ten 53 1024 (l_powf L) -> codes_kept 53 1024 L lit64.
Proof. apply (kept 53 1024 ltac:(lia) ltac:(lia) L _ (litd_ok 53 1024 ltac:(lia) ltac:(lia))). vm_compute. reflexivity. Qed.
Theorem C103_image_f32 {K : XConst} {KO : XConstOk K} (L : libm f32) : log10_ok 24 128 (l_log10 L) -> good_powf 24 128 (l_powf L) -> powf_wide 24 128 (l_powf L) -> agree_alexa 24 128 L lit32 [(14, 1); (16, 3)]%Z.
Proof.
  intros LG (PW & PZ & PN) PV. apply (alexa_agree 24 128 ltac:(lia) ltac:(lia) L _ lit32_ok 95 _ LG PW PZ PV (fit_alexa32 L)); change (bpow radix2 (- (24))) with (/ 16777216); [lra|].
  intros d w n I Hn. pose proof (depth_le n d Hn) as DN. destruct I as [I|[I|[]]]; injection I as <- <-.
  - change (depth 14) with 16383%Z in DN. split; [lia|]. apply (grow_N (depth n) 16383 _ 1 DN); lra.
  - change (depth 16) with 65535%Z in DN. split; [lia|]. apply (grow_N (depth n) 65535 _ 3 DN); lra.
Qed.
Theorem C103_image_f64 {K : XConst} {KO : XConstOk K} (L : libm f64) : log10_ok 53 1024 (l_log10 L) -> good_powf 53 1024 (l_powf L) -> powf_wide 53 1024 (l_powf L) -> agree_alexa 53 1024 L lit64 [(16, 1)]%Z.
Proof.
  intros LG (PW & PZ & PN) PV. apply (alexa_agree 53 1024 ltac:(lia) ltac:(lia) L _ (litd_ok 53 1024 ltac:(lia) ltac:(lia)) 95 _ LG PW PZ PV (fit_alexa64 L)); change (bpow radix2 (- (53))) with (/ 9007199254740992); [lra|].
  intros d w n I Hn. pose proof (depth_le n d Hn) as DN. destruct I as [I|[]]; injection I as <- <-.
  change (depth 16) with 65535%Z in DN. split; [lia|]. apply (grow_N (depth n) 65535 _ 1 DN); lra.
Qed.

(* a log10 and a powf as assumed exist: the correctly rounded ones *)
Section Exist.
Context (prec emax : Z) {Hp : Prec_gt_0 prec} {He : Prec_lt_emax prec emax} (P5 : (24 <= prec)%Z) (E5 : (128 <= emax)%Z).
Notation fl := (binary_float prec emax).
Notation u := (bpow radix2 (- prec)).
Definition round_log (x : fl) : fl := nearest prec emax (lg (B2R x)).
Definition log_libm : libm fl := let L := some_libm (B754_zero false : fl) (full_pow prec emax) in
  {| l_exp := l_exp L; l_sin := l_sin L; l_cos := l_cos L; l_log10 := round_log; l_powf := full_pow prec emax; l_powi := l_powi L; l_atan2 := l_atan2 L; l_hypot := l_hypot L; l_degrees := l_degrees L; l_radians := l_radians L; l_approx := l_approx L |}.
Lemma round_log_ok : log10_ok prec emax round_log.
Proof.
  intros x F X. pose proof (lg_range _ X) as B. assert (A : Rabs (lg (B2R x)) <= 3) by (apply Rabs_le; lra). destruct (nearest_ok prec emax (lg (B2R x))) as [G V]; [apply (small_rnd prec emax P5 E5); lra|].
  split; [exact G|]. unfold round_log. rewrite V. destruct (CurveProofs.u24 prec P5) as [U0 U]. pose proof (eta_le prec emax E5) as ET.
  eapply Rle_trans; [exact (rnd_any prec emax _)|]. assert (u * Rabs (lg (B2R x)) <= u * 3) by (apply Rmult_le_compat_l; lra). lra.
Qed.
Lemma full_ten : powf_ten prec emax (full_pow prec emax).
Proof.
  intros x y Fx Fy X Y. unfold full_pow, rounded_pow. rewrite Rlt_bool_false, Rlt_bool_true, X by lra.
  assert (B : 0.1 <= Rpower 10 (B2R y) <= 1000).
  { split; [replace 0.1 with (Rpower 10 (- (1))) by (rewrite Rpower_Ropp, Rpower_1 by lra; lra)|replace 1000 with (Rpower 10 3) by (replace 3 with (INR 3) by (cbn; lra); rewrite Rpower_pow by lra; cbn; lra)]; apply Rle_Rpower; lra. }
  pose proof (tiny_le emax E5) as [T0 T]. destruct (nearest_ok prec emax (Rpower 10 (B2R y))) as [F V]; [apply (small_rnd prec emax P5 E5); rewrite Rabs_pos_eq; lra|]. split; [exact F|]. rewrite V. pose proof (CurveProofs.u24 prec P5).
  eapply rel_weaken; [apply (rnd_rel prec emax); lra|lra|lra].
Qed.
End Exist.
(* black keeps clear of zero: code 24 of 255, 6082 of 65535, with any library; with a rounded one, bright codes come back and a saturated pixel is within a code of the exact one *)
Example C103_black_example (L : libm f32) : exists n n', @rgb_to_rgb _ (f32_ops L) _ (@rgb_to_u8 _ (f32_ops L)) (@SRGB _ (f32_ops L)) (@ALEXA_WIDE_GAMUT _ (f32_ops L)) [Rgb (lit32 0.0%Q) (lit32 0.0%Q) (lit32 0.0%Q)] [Rgb 0 0 0]%Z = Ret (n, [Rgb 24 24 24]%Z)
  /\ @rgb_to_rgb _ (f32_ops L) _ (@rgb_to_u16 _ (f32_ops L)) (@SRGB _ (f32_ops L)) (@ALEXA_WIDE_GAMUT _ (f32_ops L)) [Rgb (lit32 0.0%Q) (lit32 0.0%Q) (lit32 0.0%Q)] [Rgb 0 0 0]%Z = Ret (n', [Rgb 6082 6082 6082]%Z).
Proof. exists 1%nat, 1%nat. split; vm_compute; reflexivity. Qed.
Example C103_example : exists L : libm f32, log10_ok 24 128 (l_log10 L) /\ powf_ten 24 128 (l_powf L) /\ good_powf 24 128 (l_powf L) /\ powf_wide 24 128 (l_powf L)
  /\ @rgb_to_uint _ (f32_ops L) 65535 (cs_encode (@ALEXA_WIDE_GAMUT _ (f32_ops L)) (cs_decode (@ALEXA_WIDE_GAMUT _ (f32_ops L)) (@rgb_of_uint _ (f32_ops L) 65535 (Rgb 65535 40000 9808)%Z))) = (Rgb 65535 40000 9808)%Z
  /\ exists c d, @rgb_to_rgb _ (f32_ops L) _ (@rgb_to_uint _ (f32_ops L) 1023) (@SRGB _ (f32_ops L)) (@ALEXA_WIDE_GAMUT _ (f32_ops L)) [@rgb_of_uint _ (f32_ops L) 255 (Rgb 255 0 17)%Z] [Rgb 0 0 0]%Z = Ret (1%nat, [c])
    /\ @rgb_to_rgb _ (@xr_ops f32_const) _ (@rgb_to_uint _ (@xr_ops f32_const) 1023) (@SRGB _ (@xr_ops f32_const)) (@ALEXA_WIDE_GAMUT _ (@xr_ops f32_const)) [@rgb_of_uint _ (@xr_ops f32_const) 255 (Rgb 255 0 17)%Z] [Rgb 0 0 0]%Z = Ret (1%nat, [d]) /\ close 1 c d.
Proof.
  set (L := log_libm 24 128). pose proof (round_log_ok 24 128 ltac:(lia) ltac:(lia) : log10_ok 24 128 (l_log10 L)) as LG. pose proof (full_ten 24 128 ltac:(lia) ltac:(lia) : powf_ten 24 128 (l_powf L)) as PT.
  pose proof (full_pow_ok 24 128 ltac:(lia) ltac:(lia) : good_powf 24 128 (l_powf L)) as PW. pose proof (full_wide 24 128 ltac:(lia) ltac:(lia) : powf_wide 24 128 (l_powf L)) as PV.
  exists L. repeat (split; [assumption|]). split; [apply (C103_codes_f32 L LG PT); cbn; lia|].
  destruct (@C103_image_f32 f32_const f32_const_ok L LG PW PV 0%nat ltac:(lia)) as (s & s' & A & A' & H).
  assert (SO : forall (T : Type) (x y : T), Some (Ret x) = Some (Ret y) -> x = y) by (intros T x y [= E]; exact E). apply SO in A, A'. subst s s'.
  destruct (H 8%Z 10%Z 14%Z 1%Z ltac:(lia) (or_introl eq_refl) ltac:(lia) [Rgb 255 0 17]%Z [Rgb 0 0 0]%Z [Rgb 0 0 0]%Z) as (out & out' & H1 & H2 & H3); [repeat constructor; cbn; lia|reflexivity|reflexivity|].
  cbn [length map] in H1, H2. inversion H3 as [|c d ? ? X F0 E0 E1]; subst; [unfold rgb_to_rgb in H1; destruct (@rgb_to_rgb_matrix _ _ _ _); discriminate H1|].
  inversion F0; subst; [|unfold rgb_to_rgb in H1; destruct (@rgb_to_rgb_matrix _ _ _ _); discriminate H1]. exists c, d. split; [exact H1|]. split; [exact H2|exact X].
Qed.
Print Assumptions C103_codes_f32.
Print Assumptions C103_codes_f64.
Print Assumptions C103_image_f32.
Print Assumptions C103_image_f64.
