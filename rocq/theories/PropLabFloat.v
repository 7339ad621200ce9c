(* C91, C92: Lab in the code's own arithmetic *)
From Coq Require Import Reals ZArith QArith Qreals Lra Lia Bool List.
From Flocq Require Import Core BinarySingleNaN.
From Verif Require Import SpecLin Outcome RealOps MathModel ColorModel LabModel SpaceModel AdaptModel IllumModel TransformModel XReal FloatInst FloatProofs ErrProofs TransferProofs LabProofs PropPixel RelErr CurveProofs PropCurve PropSelf LabErrProofs LabTripProofs.
Import ListNotations.
Open Scope R_scope.

Lemma exact32 : exact_lit 24 128 (fun q => f64_to_f32 (b_of_Q 53 1024 q)).
Proof.
  assert (G : forall q m e z, B2SF (f64_to_f32 (b_of_Q 53 1024 q)) = SpecFloat.S754_finite false m e -> (Zpos m * 2 ^ (e + 30) = z * 2 ^ 30)%Z -> (0 <= e + 30)%Z -> is_finite (f64_to_f32 (b_of_Q 53 1024 q)) = true /\ B2R (f64_to_f32 (b_of_Q 53 1024 q)) = IZR z).
  { intros q m e z H E N. split; [rewrite <- is_finite_SF_B2SF, H; reflexivity|]. rewrite <- SF2R_B2SF, H. unfold SF2R, F2R. cbn [Fnum Fexp cond_Zopp]. apply (f_equal IZR) in E. rewrite !mult_IZR in E. change 2%Z with (radix_val radix2) in E. rewrite !IZR_Zpower, bpow_plus in E by lia.
    pose proof (bpow_gt_0 radix2 30). apply (Rmult_eq_reg_r (bpow radix2 30)); lra. }
  unfold exact_lit. repeat apply Forall_cons; [..|apply Forall_nil]; cbn [fst snd].
  all: eapply G; [vm_compute; reflexivity|vm_compute; reflexivity|vm_compute; discriminate].
Qed.
Lemma exact64 : exact_lit 53 1024 (b_of_Q 53 1024).
Proof. unfold exact_lit. repeat apply Forall_cons; [..|apply Forall_nil]; cbn [fst snd]; apply and_comm, b_of_Q_int; try (q2r; lra); vm_compute; discriminate. Qed.
Lemma h32 : is_finite (f64_to_f32 (b_of_Q 53 1024 100.0)) = true /\ B2R (f64_to_f32 (b_of_Q 53 1024 100.0)) = 100.
Proof.
  split; [reflexivity|]. rewrite <- SF2R_B2SF. change (B2SF (f64_to_f32 (b_of_Q 53 1024 100.0))) with (SpecFloat.S754_finite false 13107200 (-17)). unfold SF2R, F2R. cbn [Fnum Fexp cond_Zopp]. change (bpow radix2 (-17)) with (/ 131072). lra.
Qed.
Lemma h64 : is_finite (b_of_Q 53 1024 100.0) = true /\ B2R (b_of_Q 53 1024 100.0) = 100.
Proof. apply and_comm, b_of_Q_int; [q2r; lra|vm_compute; discriminate]. Qed.

(* ---- C91: how accurate the conversions are ---- *)
Definition off {p e} (x : binary_float p e) (y d : R) : Prop := is_finite x = true /\ Rabs (B2R x - y) <= d.
(* the colours in question: every component between -15% and 115% of the white's, the white's between 50 and 110 *)
Definition lit_by {p e} (c w : xyz (binary_float p e)) : Prop := in_gamut p e (xyz_x c) (xyz_x w) /\ in_gamut p e (xyz_y c) (xyz_y w) /\ in_gamut p e (xyz_z c) (xyz_z w).
Definition real3 {p e} (c : xyz (binary_float p e)) : vec := (B2R (xyz_x c), B2R (xyz_y c), B2R (xyz_z c)).
Definition lab_near {p e} (c : lab (binary_float p e)) (v : vec) (dL da db : R) : Prop := match v with (l, a, b) => off (lab_L c) l dL /\ off (lab_a c) a da /\ off (lab_b c) b db end.
Definition xyz_near {p e} (c d w : xyz (binary_float p e)) (k : R) : Prop := off (xyz_x c) (B2R (xyz_x d)) (k * B2R (xyz_x w)) /\ off (xyz_y c) (B2R (xyz_y d)) (k * B2R (xyz_y w)) /\ off (xyz_z c) (B2R (xyz_z d)) (k * B2R (xyz_z w)).
Lemma lab_near_all p e {Hp : Prec_gt_0 p} {He : Prec_lt_emax p e} (L : libm (binary_float p e)) lit dL da db k : (24 <= p)%Z -> (128 <= e)%Z -> powf_ok p e (l_powf L) -> powi3_ok p e (l_powi L) -> exact_lit p e lit ->
  1150 * bpow radix2 (- p) <= dL -> 9800 * bpow radix2 (- p) <= da -> 3900 * bpow radix2 (- p) <= db -> 72 * bpow radix2 (- p) <= k ->
  forall c w, lit_by c w -> lab_near (@xyz_to_lab _ (b_ops p e L lit) c w) (to_lab (real3 c) (real3 w)) dL da db /\ xyz_near (@lab_to_xyz _ (b_ops p e L lit) (@xyz_to_lab _ (b_ops p e L lit) c w) w) c w k.
Proof.
  intros P5 E5 PW PI LX H1 H2 H3 H4 [x y z] [wx wy wz] (X & Y & Z). cbn [xyz_x xyz_y xyz_z] in X, Y, Z. split.
  - pose proof (to_lab_ok p e P5 E5 L lit PW LX x y z wx wy wz X Y Z) as T. cbv zeta in T. unfold lab_near, real3. cbn [xyz_x xyz_y xyz_z] in *. destruct (to_lab _ _) as [[l a] b]. destruct T as ((A1 & A2) & (B1 & B2) & (C1 & C2)). split; [|split]; (split; [assumption|]); lra.
  - pose proof (round_trip p e P5 E5 L lit PW PI LX x y z wx wy wz X Y Z) as T. cbv zeta in T. unfold xyz_near. cbn [xyz_x xyz_y xyz_z] in *. set (c := @lab_to_xyz _ _ _ _) in *. destruct T as ((A1 & A2) & (B1 & B2) & (C1 & C2)).
    destruct X as (_ & _ & WX & _). destruct Y as (_ & _ & WY & _). destruct Z as (_ & _ & WZ & _).
    split; [|split]; (split; [assumption|]); (eapply Rle_trans; [eassumption|apply Rmult_le_compat_r; lra]).
Qed.
(* what the platform has to provide: powf within 4 half-units in the last place on (0, 2], powi x 3 likewise *)
Definition good_libm (p e : Z) {Hp : Prec_gt_0 p} {He : Prec_lt_emax p e} (L : libm (binary_float p e)) : Prop := good_powf p e (l_powf L) /\ powi3_ok p e (l_powi L).
Theorem C91_lab_f32 (L : libm f32) : good_libm 24 128 L -> forall c w, lit_by c w ->
  lab_near (@xyz_to_lab _ (f32_ops L) c w) (to_lab (real3 c) (real3 w)) 0.00007 0.0006 0.00024 /\ xyz_near (@lab_to_xyz _ (f32_ops L) (@xyz_to_lab _ (f32_ops L) c w) w) c w 4.3e-6.
Proof. intros ((PW & _ & _) & PI). apply (lab_near_all 24 128 L (fun q => f64_to_f32 (b_of_Q 53 1024 q))); try lia; try assumption; [exact exact32|..]; change (bpow radix2 (- (24))) with (/ 16777216); lra. Qed.
Theorem C91_lab_f64 (L : libm f64) : good_libm 53 1024 L -> forall c w, lit_by c w ->
  lab_near (@xyz_to_lab _ (f64_ops L) c w) (to_lab (real3 c) (real3 w)) 1.3e-13 1.1e-12 4.4e-13 /\ xyz_near (@lab_to_xyz _ (f64_ops L) (@xyz_to_lab _ (f64_ops L) c w) w) c w 8e-15.
Proof. intros ((PW & _ & _) & PI). apply (lab_near_all 53 1024 L (b_of_Q 53 1024)); try lia; try assumption; [exact exact64|..]; change (bpow radix2 (- (53))) with (/ 9007199254740992); lra. Qed.

(* a platform like that *)
Definition lab_libm (p e : Z) {Hp : Prec_gt_0 p} {He : Prec_lt_emax p e} : libm (binary_float p e) :=
  {| l_exp := fun x => x; l_sin := fun x => x; l_cos := fun x => x; l_log10 := fun x => x; l_powf := full_pow p e; l_powi := by_mult p e; l_atan2 := fun x _ => x; l_hypot := fun x _ => x;
     l_degrees := fun x => x; l_radians := fun x => x; l_approx := fun _ _ _ _ => false |}.
Lemma lab_libm_ok (p e : Z) {Hp : Prec_gt_0 p} {He : Prec_lt_emax p e} : (24 <= p)%Z -> (128 <= e)%Z -> good_libm p e (lab_libm p e).
Proof. intros P E. split; [apply full_pow_ok; assumption|apply by_mult_ok; assumption]. Qed.

(* ---- C92: integer pixels through Lab ---- *)
Section Kept.
Context {T} {O : RealOps T}.
(* linear light with codes 0 .. N, to XYZ and Lab under the white w and back *)
Definition lab_light_kept (N : Z) (w : xyy T) (s : color_space T) : Prop :=
  exists A B, rgb_to_xyz_matrix w s = Ret A /\ xyz_to_rgb_matrix w s = Ret B /\
    forall r g b, (0 <= r <= N)%Z -> (0 <= g <= N)%Z -> (0 <= b <= N)%Z ->
      rgb_to_uint N (xyz_to_rgb B (lab_to_xyz (xyz_to_lab (rgb_to_xyz A (rgb_of_uint N (Rgb r g b))) (xyz_from_chromaticity w)) (xyz_from_chromaticity w))) = Rgb r g b.
(* the same for stored pixels, decoded first and encoded afterwards *)
Definition lab_pixels_kept (N : Z) (w : xyy T) (s : color_space T) : Prop :=
  exists A B, rgb_to_xyz_matrix w s = Ret A /\ xyz_to_rgb_matrix w s = Ret B /\
    forall r g b, (0 <= r <= N)%Z -> (0 <= g <= N)%Z -> (0 <= b <= N)%Z ->
      rgb_to_uint N (cs_encode s (xyz_to_rgb B (lab_to_xyz (xyz_to_lab (rgb_to_xyz A (cs_decode s (rgb_of_uint N (Rgb r g b)))) (xyz_from_chromaticity w)) (xyz_from_chromaticity w)))) = Rgb r g b.
Definition all_whites (K : Z -> xyy T -> color_space T -> Prop) (l : list (outcome (color_space T) * Z)) : Prop :=
  Forall (fun sn => exists s, fst sn = Ret s /\ Forall (fun w => forall N, (1 <= N <= snd sn)%Z -> K N w s) whites) l.
Definition light_f32 : list (outcome (color_space T) * Z) :=
  [(Ret SRGB, 4095); (SRGB_DRV, 16383); (ITUR_BT709, 16383); (ITUR_BT2020, 32767); (DCI_P3, 16383); (DCI_P3_D65, 16383);
   (Ret ACES, 32767); (ACES_CG, 32767); (Ret ADOBE_RGB_1998, 8191); (Ret ALEXA_WIDE_GAMUT, 16383)]%Z.
Definition light_f64 : list (outcome (color_space T) * Z) :=
  [(Ret SRGB, 4095); (SRGB_DRV, 65535); (ITUR_BT709, 65535); (ITUR_BT2020, 65535); (DCI_P3, 65535); (DCI_P3_D65, 65535);
   (Ret ACES, 65535); (ACES_CG, 65535); (Ret ADOBE_RGB_1998, 32767); (Ret ALEXA_WIDE_GAMUT, 65535)]%Z.
Definition stored_f32 : list (outcome (color_space T) * Z) :=
  [(Ret SRGB, 255); (SRGB_DRV, 1023); (ITUR_BT709, 511); (ITUR_BT2020, 511); (Ret ACES, 32767); (ACES_CG, 32767)]%Z.
Definition stored_f64 : list (outcome (color_space T) * Z) :=
  [(Ret SRGB, 255); (SRGB_DRV, 65535); (ITUR_BT709, 511); (ITUR_BT2020, 511); (Ret ACES, 65535); (ACES_CG, 65535); (DCI_P3, 255); (DCI_P3_D65, 255)]%Z.
End Kept.

Lemma scale_le N M x : (1 <= N <= M)%Z -> 0 <= x -> IZR M * x < / 2 -> IZR N * x < / 2.
Proof. intros H X B. apply Rle_lt_trans with (IZR M * x); [apply Rmult_le_compat_r; [exact X|apply IZR_le; lia]|exact B]. Qed.
Lemma p26_channel p e {Hp : Prec_gt_0 p} {He : Prec_lt_emax p e} (P5 : (24 <= p)%Z) (E5 : (128 <= e)%Z) (L : libm (binary_float p e)) (lit : Q -> binary_float p e) : powf_ok p e (l_powf L) -> powf_zero p e (l_powf L) -> powf_neg p e (l_powf L) ->
  IZR (e + p) * bpow radix2 (- p) <= / 10000 -> (2 * p <= e)%Z -> forall N c, (1 <= N <= 255)%Z -> 0 <= c <= 8.77e-8 ->
  channel_ok p e L lit N (fun x => l_powf L x (b_of_Q p e 2.6)) (fun x => l_powf L x (Bdiv mode_NE (b_of_Q p e 1.0) (b_of_Q p e 2.6))) (1 + 4 * bpow radix2 (- p)) 0 c.
Proof.
  intros PW PZ PN E6 E7 N c HN D0. pose proof (CurveProofs.u24 p P5) as [U0 U].
  assert (P1 : 1.001 * Rpower 8.77e-8 (/ 2.6) <= 0.00195). { assert (Rpower 8.77e-8 (/ 2.6) < 0.001945) by (apply (gt_frac_power _ _ 5 13); [lra|lra|cbn; lra|lia|]; lra). lra. }
  assert (P2 : Rpower (/ 256) (1 - 2.6) < 7200). { replace (1 - 2.6) with (- (1.6)) by lra. rewrite Rpower_Ropp. rewrite <- (Rinv_inv 7200). apply Rinv_lt_contravar; [apply Rmult_lt_0_compat; [lra|apply exp_pos]|]. apply (lt_frac_power _ _ 8 5); [lra|lra|cbn; lra|lia|]; lra. }
  assert (P3 : 8.77e-8 <= Rpower (/ 256) 2.6 / 2). { assert (5e-7 < Rpower (/ 256) 2.6) by (apply (lt_frac_power _ _ 13 5); [lra|lra|cbn; lra|lia|]; lra). lra. }
  assert (GQ : Q2R 2.6 = 2.6) by reflexivity.
  apply (power_channel p e P5 E5 L lit PW PZ PN E6 E7 N 2.6 0 c 0.00195); rewrite ?GQ; try lra; [lia|..].
  - intro C8. eapply Rle_trans; [|exact P1]. apply Rmult_le_compat_l; [lra|]. apply Rle_Rpower_l; lra.
  - assert (c * Rpower (/ 256) (1 - 2.6) <= 8.77e-8 * 7200) by (apply Rmult_le_compat; try lra; apply Rlt_le, exp_pos). lra.
  - apply (scale_le N 255); [lia|lra|lra].
Qed.
Section G.
Context (p e : Z) {Hp : Prec_gt_0 p} {He : Prec_lt_emax p e} (P5 : (24 <= p)%Z) (E5 : (128 <= e)%Z) (L : libm (binary_float p e)) (lit : Q -> binary_float p e).
Notation fl := (binary_float p e).
Notation ops := (b_ops p e L lit).
Notation u := (bpow radix2 (- p)).
Notation litd := (b_of_Q p e).
Context (LO : lit_ok p e lit) (LX : exact_lit p e lit) (LH : is_finite (lit 100.0) = true /\ B2R (lit 100.0) = 100) (G : good_libm p e L) (E6 : IZR (e + p) * u <= / 10000) (E7 : (2 * p <= e)%Z).
Definition space_check (yc D : Z) (o : outcome (color_space fl)) : bool :=
  match o with Ret s => forallb (fun w => match @rgb_to_xyz_matrix _ ops w s, @xyz_to_rgb_matrix _ ops w s with Ret A, Ret B => lab_check p e 120 yc D A B (@xyz_from_chromaticity _ ops w) | _, _ => false end) (@whites _ ops) | _ => false end.
Lemma space_checked yc D o : space_check yc D o = true -> exists s, o = Ret s /\ forall w, In w (@whites _ ops) -> exists A B, @rgb_to_xyz_matrix _ ops w s = Ret A /\ @xyz_to_rgb_matrix _ ops w s = Ret B /\ lab_check p e 120 yc D A B (@xyz_from_chromaticity _ ops w) = true.
Proof.
  intro H. destruct o as [s| |]; try discriminate. exists s. split; [reflexivity|]. intros w W. unfold space_check in H. eapply forallb_forall in H; [|exact W]. cbv beta in H.
  destruct (@rgb_to_xyz_matrix _ ops w s) as [A| |]; try discriminate. destruct (@xyz_to_rgb_matrix _ ops w s) as [B| |]; try discriminate. exists A, B. auto.
Qed.
Lemma channel_weaken N dec enc Y Y' D c : Y <= Y' -> channel_ok p e L lit N dec enc Y D c -> channel_ok p e L lit N dec enc Y' D c.
Proof. intros H C k Hk. destruct (C k Hk) as (F & B & V). split; [exact F|]. split; [lra|exact V]. Qed.
Lemma pixels_by dec enc yc D N w s A B : channel_ok p e L lit N dec enc (IZR yc / 100) 0 (IZR D / 1000000000000) -> (100 <= yc <= 105)%Z ->
  (forall c, cs_eotf s c = Rgb (dec (rgb_r c)) (dec (rgb_g c)) (dec (rgb_b c))) -> (forall c, cs_oetf s c = Rgb (enc (rgb_r c)) (enc (rgb_g c)) (enc (rgb_b c))) ->
  @rgb_to_xyz_matrix _ ops w s = Ret A -> @xyz_to_rgb_matrix _ ops w s = Ret B -> lab_check p e 120 yc D A B (@xyz_from_chromaticity _ ops w) = true -> @lab_pixels_kept _ ops N w s.
Proof.
  intros C HY ED EO EA EB K. destruct G as ((PW & _ & _) & PI). exists A, B. split; [exact EA|]. split; [exact EB|]. intros r g b Hr Hg Hb. unfold cs_encode, cs_decode. rewrite EO, ED. cbn [rgb_r rgb_g rgb_b].
  exact (lab_pixel p e P5 E5 L lit PW PI LX (proj1 LH) (proj2 LH) 120 yc D N A B _ dec enc r g b K HY C Hr Hg Hb).
Qed.
Lemma light_by D N w s A B : (1 <= N <= 65535)%Z -> IZR N * (IZR D / 1000000000000 + 2 * u) < / 2 ->
  @rgb_to_xyz_matrix _ ops w s = Ret A -> @xyz_to_rgb_matrix _ ops w s = Ret B -> lab_check p e 120 100 D A B (@xyz_from_chromaticity _ ops w) = true -> @lab_light_kept _ ops N w s.
Proof.
  intros HN HB EA EB K. destruct G as ((PW & _ & _) & PI). exists A, B. split; [exact EA|]. split; [exact EB|]. intros r g b Hr Hg Hb.
  assert (C : channel_ok p e L lit N (fun x => x) (fun x => x) (IZR 100 / 100) 0 (IZR D / 1000000000000)). { replace (IZR 100 / 100) with 1 by lra. apply linear_channel; try assumption; try lra. }
  pose proof (lab_pixel p e P5 E5 L lit PW PI LX (proj1 LH) (proj2 LH) 120 100 D N A B _ (fun x => x) (fun x => x) r g b K ltac:(lia) C Hr Hg Hb) as Q. cbv zeta in Q. unfold via_lab in Q.
  change (@rgb_of_uint _ ops N (Rgb r g b)) with (Rgb (@dequantize _ ops N r) (@dequantize _ ops N g) (@dequantize _ ops N b)). destruct (@xyz_to_rgb _ ops B _). exact Q.
Qed.
Definition light_check (l : list (outcome (color_space fl) * Z)) (ds : list Z) : bool := forallb (fun sd => space_check 100 (snd sd) (fst (fst sd))) (combine l ds).
Lemma light_all l ds : length l = length ds -> light_check l ds = true -> Forall (fun nd => (fst nd <= 65535)%Z /\ 0 <= IZR (snd nd) /\ IZR (fst nd) * (IZR (snd nd) / 1000000000000 + 2 * u) < / 2) (combine (map snd l) ds) -> @all_whites _ ops (@lab_light_kept _ ops) l.
Proof.
  assert (U0 : 0 < u) by apply bpow_gt_0.
  revert ds. induction l as [|[o M] l IH]; intros [|d ds] LL C F; try discriminate; [constructor|]. cbn [map combine fst snd] in F. inversion F as [|nd ? (F1 & F2 & F3) F4]; subst. cbn [fst snd] in F1, F2, F3. unfold light_check in C. cbn [combine forallb fst snd] in C. apply andb_true_iff in C. destruct C as [C1 C2]. constructor.
  - cbn [fst snd]. destruct (space_checked 100 d o C1) as (s & E & W). exists s. split; [exact E|]. apply Forall_forall. intros w Hw N HN. destruct (W w Hw) as (A & B & EA & EB & K). apply (light_by d N w s A B); try assumption; [lia|]. apply (scale_le N M); [lia|lra|exact F3].
  - apply (IH ds); [injection LL; auto|exact C2|exact F4].
Qed.
(* one curve at a time *)
Definition stored (o : outcome (color_space fl)) (M : Z) : Prop := exists s, o = Ret s /\ Forall (fun w => forall N, (1 <= N <= M)%Z -> @lab_pixels_kept _ ops N w s) (@whites _ ops).
Lemma stored_curve dec enc E D M o : (forall x, is_finite x = true -> 0 <= B2R x <= 1 -> moves1 p e dec enc E x) -> (forall s, o = Ret s -> (forall c, cs_eotf s c = Rgb (dec (rgb_r c)) (dec (rgb_g c)) (dec (rgb_b c))) /\ (forall c, cs_oetf s c = Rgb (enc (rgb_r c)) (enc (rgb_g c)) (enc (rgb_b c)))) ->
  space_check 105 D o = true -> (M <= 65535)%Z -> 0 <= E -> 0 <= IZR D <= 1000000000 -> IZR M * (E + 13 * (IZR D / 1000000000000) + 2 * u) < / 2 -> stored o M.
Proof.
  intros MV EQ C HM E0 D0 B. assert (U0 : 0 < u) by apply bpow_gt_0. destruct (space_checked 105 D o C) as (s & E' & W). destruct (EQ s E') as [ED EO]. exists s. split; [exact E'|]. apply Forall_forall. intros w Hw N HN. destruct (W w Hw) as (A & B' & EA & EB & K).
  apply (pixels_by dec enc 105 D N w s A B'); try assumption; [|lia]. replace (IZR 105 / 100) with 1.05 by lra. apply (moves_channel p e P5 L lit N dec enc E); try assumption; try lra; [lia|]. apply (scale_le N M); [exact HN|lra|lra].
Qed.
Lemma stored_linear D M o : (forall s, o = Ret s -> cs_oetf s = @enc_linear fl /\ cs_eotf s = @dec_linear fl) -> space_check 100 D o = true -> (M <= 65535)%Z -> 0 <= IZR D -> IZR M * (IZR D / 1000000000000 + 2 * u) < / 2 -> stored o M.
Proof.
  intros EQ C HM D0 B. assert (U0 : 0 < u) by apply bpow_gt_0. destruct (space_checked 100 D o C) as (s & E' & W). destruct (EQ s E') as [EO ED]. exists s. split; [exact E'|]. apply Forall_forall. intros w Hw N HN. destruct (W w Hw) as (A & B' & EA & EB & K).
  apply (pixels_by (fun x => x) (fun x => x) 100 D N w s A B'); try assumption; [|lia|intros [? ? ?]; rewrite ED; reflexivity|intros [? ? ?]; rewrite EO; reflexivity]. replace (IZR 100 / 100) with 1 by lra. apply linear_channel; try assumption; try lra; [lia|]. apply (scale_le N M); [exact HN|lra|lra].
Qed.
Lemma stored_power D c M o : c = IZR D / 1000000000000 -> (forall s, o = Ret s -> cs_oetf s = @pow_curve _ ops (Bdiv mode_NE (litd 1.0) (litd 2.6)) /\ cs_eotf s = @pow_curve _ ops (litd 2.6)) -> space_check 105 D o = true -> (M <= 255)%Z -> 0 <= c <= 8.77e-8 -> stored o M.
Proof.
  intros Hc EQ C HM D0. pose proof (CurveProofs.u24 p P5) as [U0 U]. destruct G as ((PW & PZ & PN) & PI). destruct (space_checked 105 D o C) as (s & E' & W). destruct (EQ s E') as [EO ED]. exists s. split; [exact E'|]. apply Forall_forall. intros w Hw N HN. destruct (W w Hw) as (A & B' & EA & EB & K).
  apply (pixels_by (fun x => l_powf L x (litd 2.6)) (fun x => l_powf L x (Bdiv mode_NE (litd 1.0) (litd 2.6))) 105 D N w s A B'); try assumption; [|lia|intros [? ? ?]; rewrite ED; reflexivity|intros [? ? ?]; rewrite EO; reflexivity].
  rewrite <- Hc. apply (channel_weaken N _ _ (1 + 4 * u)); [lra|].
  apply p26_channel; try assumption. lia.
Qed.
End G.

Lemma light32 (L : libm f32) : light_check 24 128 L (fun q => f64_to_f32 (b_of_Q 53 1024 q)) (@light_f32 _ (f32_ops L)) [98400000; 28800000; 28800000; 12900000; 23500000; 21000000; 11100000; 12900000; 30900000; 15700000]%Z = true.
Proof. vm_compute. reflexivity. Qed.
Lemma light64 (L : libm f64) : light_check 53 1024 L (b_of_Q 53 1024) (@light_f64 _ (f64_ops L)) [69940000; 1; 1; 1; 1; 1; 110; 1; 14930000; 2070000]%Z = true.
Proof. vm_compute. reflexivity. Qed.
Theorem C92_light_f32 (L : libm f32) : good_libm 24 128 L -> @all_whites _ (f32_ops L) (@lab_light_kept _ (f32_ops L)) (@light_f32 _ (f32_ops L)).
Proof.
  intro G. refine (light_all 24 128 ltac:(lia) ltac:(lia) L (fun q => f64_to_f32 (b_of_Q 53 1024 q)) exact32 h32 G _ _ _ (light32 L) _); [reflexivity|].
  cbn [map combine snd light_f32]. change (bpow radix2 (- (24))) with (/ 16777216). repeat apply Forall_cons; [..|apply Forall_nil]; cbn [fst snd]; (split; [lia|split; lra]).
Qed.
Theorem C92_light_f64 (L : libm f64) : good_libm 53 1024 L -> @all_whites _ (f64_ops L) (@lab_light_kept _ (f64_ops L)) (@light_f64 _ (f64_ops L)).
Proof.
  intro G. refine (light_all 53 1024 ltac:(lia) ltac:(lia) L (b_of_Q 53 1024) exact64 h64 G _ _ _ (light64 L) _); [reflexivity|].
  cbn [map combine snd light_f64]. change (bpow radix2 (- (53))) with (/ 9007199254740992). repeat apply Forall_cons; [..|apply Forall_nil]; cbn [fst snd]; (split; [lia|split; lra]).
Qed.
Theorem C92_stored_f32 (L : libm f32) : good_libm 24 128 L -> @all_whites _ (f32_ops L) (@lab_pixels_kept _ (f32_ops L)) (@stored_f32 _ (f32_ops L)).
Proof.
  intro G. set (lit := fun q => f64_to_f32 (b_of_Q 53 1024 q)). assert (PW : powf_ok 24 128 (l_powf L)) by apply G. assert (U : bpow radix2 (- (24)) = / 16777216) by reflexivity.
  assert (CRV := stored_curve 24 128 ltac:(lia) ltac:(lia) L lit exact32 h32 G). assert (LIN := stored_linear 24 128 ltac:(lia) ltac:(lia) L lit exact32 h32 G). rewrite U in CRV, LIN.
  assert (P1 := srgb_pair 24 128 ltac:(lia) ltac:(lia) L lit lit32_ok PW). assert (P2 := bt709_pair 24 128 ltac:(lia) ltac:(lia) L lit lit32_ok PW). assert (P3 := bt2020_pair 24 128 ltac:(lia) ltac:(lia) L lit lit32_ok PW). rewrite U in P1, P2, P3.
  unfold all_whites, stored_f32. repeat apply Forall_cons; [..|apply Forall_nil]; cbn [fst snd].
  - refine (CRV _ _ _ 102100000%Z _ _ (fun x F H => proj2 (P1 x F H)) _ _ _ _ _ _); [intros s E; injection E as <-; split; intro; reflexivity|vm_compute; reflexivity|lia|lra|lra|lra].
  - refine (CRV _ _ _ 28930000%Z _ _ (fun x F H => proj2 (P1 x F H)) _ _ _ _ _ _); [intros s E; destruct (new_oetf 24 128 L lit _ _ _ _ _ _ _ E) as [EO ED]; rewrite EO, ED; split; intro; reflexivity|vm_compute; reflexivity|lia|lra|lra|lra].
  - refine (CRV _ _ _ 28930000%Z _ _ (fun x F H => proj2 (P2 x F H)) _ _ _ _ _ _); [intros s E; destruct (new_oetf 24 128 L lit _ _ _ _ _ _ _ E) as [EO ED]; rewrite EO, ED; split; intro; reflexivity|vm_compute; reflexivity|lia|lra|lra|lra].
  - refine (CRV _ _ _ 12920000%Z _ _ (fun x F H => proj2 (P3 x F H)) _ _ _ _ _ _); [intros s E; destruct (new_oetf 24 128 L lit _ _ _ _ _ _ _ E) as [EO ED]; rewrite EO, ED; split; intro; reflexivity|vm_compute; reflexivity|lia|lra|lra|lra].
  - refine (LIN 11100000%Z _ _ _ _ _ _ _); [intros s E; injection E as <-; split; reflexivity|vm_compute; reflexivity|lia|lra|lra].
  - refine (LIN 12900000%Z _ _ _ _ _ _ _); [intros s E; apply (new_oetf 24 128 L lit _ _ _ _ _ _ _ E)|vm_compute; reflexivity|lia|lra|lra].
Qed.
Theorem C92_stored_f64 (L : libm f64) : good_libm 53 1024 L -> @all_whites _ (f64_ops L) (@lab_pixels_kept _ (f64_ops L)) (@stored_f64 _ (f64_ops L)).
Proof.
  intro G. set (lit := b_of_Q 53 1024). assert (PW : powf_ok 53 1024 (l_powf L)) by apply G. assert (U : bpow radix2 (- (53)) = / 9007199254740992) by reflexivity. assert (lit64_ok := litd_ok 53 1024 ltac:(lia) ltac:(lia)).
  assert (CRV := stored_curve 53 1024 ltac:(lia) ltac:(lia) L lit exact64 h64 G). assert (LIN := stored_linear 53 1024 ltac:(lia) ltac:(lia) L lit exact64 h64 G). assert (PWR := stored_power 53 1024 ltac:(lia) ltac:(lia) L lit exact64 h64 G). rewrite U in CRV, LIN, PWR.
  assert (P1 := srgb_pair 53 1024 ltac:(lia) ltac:(lia) L lit lit64_ok PW). assert (P2 := bt709_pair 53 1024 ltac:(lia) ltac:(lia) L lit lit64_ok PW). assert (P3 := bt2020_pair 53 1024 ltac:(lia) ltac:(lia) L lit lit64_ok PW). rewrite U in P1, P2, P3.
  unfold all_whites, stored_f64. repeat apply Forall_cons; [..|apply Forall_nil]; cbn [fst snd].
  - refine (CRV _ _ _ 73430000%Z _ _ (fun x F H => proj2 (P1 x F H)) _ _ _ _ _ _); [intros s E; injection E as <-; split; intro; reflexivity|vm_compute; reflexivity|lia|lra|lra|lra].
  - refine (CRV _ _ _ 1%Z _ _ (fun x F H => proj2 (P1 x F H)) _ _ _ _ _ _); [intros s E; destruct (new_oetf 53 1024 L lit _ _ _ _ _ _ _ E) as [EO ED]; rewrite EO, ED; split; intro; reflexivity|vm_compute; reflexivity|lia|lra|lra|lra].
  - refine (CRV _ _ _ 1%Z _ _ (fun x F H => proj2 (P2 x F H)) _ _ _ _ _ _); [intros s E; destruct (new_oetf 53 1024 L lit _ _ _ _ _ _ _ E) as [EO ED]; rewrite EO, ED; split; intro; reflexivity|vm_compute; reflexivity|lia|lra|lra|lra].
  - refine (CRV _ _ _ 1%Z _ _ (fun x F H => proj2 (P3 x F H)) _ _ _ _ _ _); [intros s E; destruct (new_oetf 53 1024 L lit _ _ _ _ _ _ _ E) as [EO ED]; rewrite EO, ED; split; intro; reflexivity|vm_compute; reflexivity|lia|lra|lra|lra].
  - refine (LIN 110%Z _ _ _ _ _ _ _); [intros s E; injection E as <-; split; reflexivity|vm_compute; reflexivity|lia|lra|lra].
  - refine (LIN 1%Z _ _ _ _ _ _ _); [intros s E; apply (new_oetf 53 1024 L lit _ _ _ _ _ _ _ E)|vm_compute; reflexivity|lia|lra|lra].
  - refine (PWR _ _ 1%Z _ _ _ eq_refl _ _ _ _); [change (IZR (1024 + 53)) with 1077; lra|lia|intros s E; apply (new_oetf 53 1024 L lit _ _ _ _ _ _ _ E)|vm_compute; reflexivity|lia|lra].
  - refine (PWR _ _ 1%Z _ _ _ eq_refl _ _ _ _); [change (IZR (1024 + 53)) with 1077; lra|lia|intros s E; apply (new_oetf 53 1024 L lit _ _ _ _ _ _ _ E)|vm_compute; reflexivity|lia|lra].
Qed.

(* one colour on one platform *)
Example C92_example : let O := f32_ops (lab_libm 24 128) in exists A B, @rgb_to_xyz_matrix _ O (@xy_D65 _ O) (@SRGB _ O) = Ret A /\ @xyz_to_rgb_matrix _ O (@xy_D65 _ O) (@SRGB _ O) = Ret B /\
  @rgb_to_uint _ O 255 (cs_encode (@SRGB _ O) (@xyz_to_rgb _ O B (@lab_to_xyz _ O (@xyz_to_lab _ O (@rgb_to_xyz _ O A (cs_decode (@SRGB _ O) (@rgb_of_uint _ O 255 (Rgb 255 1 128)%Z))) (@xyz_from_chromaticity _ O (@xy_D65 _ O))) (@xyz_from_chromaticity _ O (@xy_D65 _ O))))) = Rgb 255%Z 1%Z 128%Z.
Proof.
  intro O. pose proof (C92_stored_f32 (lab_libm 24 128) (lab_libm_ok 24 128 ltac:(lia) ltac:(lia))) as H. inversion H as [|sn l (s & E & K) _ EQ]. cbn [fst snd] in E, K. injection E as <-.
  eapply Forall_forall in K; [|right; right; right; left; reflexivity]. destruct (K 255%Z ltac:(lia)) as (A & B & EA & EB & V). exists A, B. split; [exact EA|]. split; [exact EB|]. apply V; lia.
Qed.
(* a dark colour, on the straight piece of the curve, need not come back bit for bit *)
Definition dark32 : xyz f32 := let i := fun n d => f64_to_f32 (b_of_Q 53 1024 (n # d)) in Xyz (i 3%Z 10%positive) (i 1%Z 3%positive) (i 5%Z 11%positive).
Definition white32 : xyz f32 := let i := fun n d => f64_to_f32 (b_of_Q 53 1024 (n # d)) in Xyz (i 95047%Z 1000%positive) (i 100%Z 1%positive) (i 108883%Z 1000%positive).
Lemma dark_lit : lit_by dark32 white32.
Proof.
  assert (V : forall (x : f32) m e r, B2SF x = SpecFloat.S754_finite false m e -> F2R (Float radix2 (Zpos m) e) = r -> is_finite x = true /\ B2R x = r). { intros x m e r H E. split; [rewrite <- is_finite_SF_B2SF, H; reflexivity|]. rewrite <- SF2R_B2SF, H. exact E. }
  assert (F : forall (x w : f32) a b r s, is_finite x = true /\ B2R x = r -> is_finite w = true /\ B2R w = s -> r = a -> s = b -> 0 <= a <= 0.5 -> 50 <= b <= 110 -> in_gamut 24 128 x w).
  { intros x w a b r s [Fx Vx] [Fw Vw] -> -> HA HB. split; [exact Fx|]. split; [exact Fw|]. rewrite Vx, Vw. split; [exact HB|]. split.
    - assert (0 <= a / b) by (apply Rmult_le_pos; [lra|apply Rlt_le, Rinv_0_lt_compat; lra]). lra.
    - apply Rmult_le_reg_r with b; [lra|]. replace (a / b * b) with a by (field; lra). lra. }
  unfold lit_by, dark32, white32. cbn [xyz_x xyz_y xyz_z]. split; [|split].
  all: eapply F; [eapply V; [vm_compute; reflexivity|unfold F2R; cbn [Fnum Fexp]; reflexivity]|eapply V; [vm_compute; reflexivity|unfold F2R; cbn [Fnum Fexp]; reflexivity]|reflexivity|reflexivity|..].
  all: change (bpow radix2 (-25)) with (/ 33554432); change (bpow radix2 (-17)) with (/ 131072); lra.
Qed.
Lemma dark_moves : B2SF (xyz_x (@lab_to_xyz _ (f32_ops (lab_libm 24 128)) (@xyz_to_lab _ (f32_ops (lab_libm 24 128)) dark32 white32) white32)) <> B2SF (xyz_x dark32).
Proof. match goal with |- ?a <> ?b => set (x := a); set (y := b) end. assert (X : x = SpecFloat.S754_finite false 10066332 (-25)) by (vm_compute; reflexivity). assert (Y : y = SpecFloat.S754_finite false 10066330 (-25)) by (vm_compute; reflexivity). rewrite X, Y. discriminate. Qed.
Theorem C91_exact_refuted : exists (L : libm f32) (c w : xyz f32), good_libm 24 128 L /\ lit_by c w /\ @lab_to_xyz _ (f32_ops L) (@xyz_to_lab _ (f32_ops L) c w) w <> c.
Proof.
  exists (lab_libm 24 128), dark32, white32. split; [apply lab_libm_ok; lia|]. split; [exact dark_lit|]. intro H. pose proof dark_moves as D. rewrite H in D. exact (D eq_refl).
Qed.
Example C91_example : lab_near (@xyz_to_lab _ (f32_ops (lab_libm 24 128)) dark32 white32) (to_lab (real3 dark32) (real3 white32)) 0.00007 0.0006 0.00024.
Proof. exact (proj1 (C91_lab_f32 (lab_libm 24 128) (lab_libm_ok 24 128 ltac:(lia) ltac:(lia)) dark32 white32 dark_lit)). Qed.
Print Assumptions C92_stored_f64.
