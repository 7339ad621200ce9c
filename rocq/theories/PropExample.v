(* C94: the image conversion examples *)
From Coq Require Import Reals ZArith QArith Qreals Lra Lia List Bool.
From Flocq Require Import Core BinarySingleNaN.
From Verif Require Import Outcome RealOps MathModel ColorModel AdaptModel SpaceModel TransformModel ExampleModel
  XReal SpecLin FloatInst FloatProofs MatProofs AdaptProofs SpaceProofs PropColor PropSpace PropTransform TransferProofs PropGamut PropLum.
Import ListNotations.
Open Scope R_scope.

(* the program turns every byte string into three, of whole pixels, with byte values; each output pixel is what the program
   makes of the input pixel at the same place alone; and bytes after the last whole pixel are ignored *)
Definition pixel_at (i : nat) (l : list Z) : list Z := firstn 3 (skipn (3 * i) l).
Definition converts (P : list Z -> outcome (list Z * list Z * list Z)) : Prop := forall bytes : list Z,
  exists a b c, P bytes = Ret (a, b, c)
    /\ Forall (fun o => length o = (3 * (length bytes / 3))%nat /\ Forall (fun k => (0 <= k <= 255)%Z) o) [a; b; c]
    /\ (forall i, (i < length bytes / 3)%nat -> P (pixel_at i bytes) = Ret (pixel_at i a, pixel_at i b, pixel_at i c))
    /\ P (firstn (3 * (length bytes / 3)) bytes) = P bytes.

Lemma ind3 {A : Type} (P : list A -> Prop) : P [] -> (forall a, P [a]) -> (forall a b, P [a; b]) -> (forall a b c l, P l -> P (a :: b :: c :: l)) -> forall l, P l.
Proof.
  intros H0 H1 H2 H3. fix IH 1. intros [|a [|b [|c l]]]; [exact H0|apply H1|apply H2|apply H3, IH].
Qed.
Lemma div3 n : ((Datatypes.S (Datatypes.S (Datatypes.S n))) / 3 = Datatypes.S (n / 3))%nat.
Proof. replace (Datatypes.S (Datatypes.S (Datatypes.S n))) with (n + 1 * 3)%nat by lia. rewrite Nat.div_add by lia. lia. Qed.
Lemma chunks_length {A : Type} (l : list A) : length (chunks_exact3 l) = (length l / 3)%nat.
Proof. induction l using ind3; try reflexivity. cbn [chunks_exact3 length]. rewrite IHl, div3. reflexivity. Qed.
Lemma chunks_whole {A : Type} (l : list A) : chunks_exact3 (firstn (3 * (length l / 3)) l) = chunks_exact3 l.
Proof.
  induction l using ind3; try reflexivity. cbn [length]. rewrite div3. replace (3 * Datatypes.S (length l / 3))%nat with (3 + 3 * (length l / 3))%nat by lia.
  cbn [Nat.add firstn chunks_exact3]. rewrite IHl. reflexivity.
Qed.
Definition out_of (f : Z * Z * Z -> rgbu) (bytes : list Z) : list Z := rgbu8_slice_as_u8 (map f (chunks_exact3 bytes)).
Lemma out_length f bytes : length (out_of f bytes) = (3 * (length bytes / 3))%nat.
Proof.
  unfold out_of. rewrite <- chunks_length. induction (chunks_exact3 bytes) as [|p l IH]; [reflexivity|].
  change (3 + length (rgbu8_slice_as_u8 (map f l)) = 3 * Datatypes.S (length l))%nat. rewrite IH. lia.
Qed.
Lemma out_range f bytes : (forall p, Forall (fun k => (0 <= k <= 255)%Z) [rgb_r (f p); rgb_g (f p); rgb_b (f p)]) -> Forall (fun k => (0 <= k <= 255)%Z) (out_of f bytes).
Proof. intro H. unfold out_of, rgbu8_slice_as_u8. apply Forall_flat_map, Forall_forall. intros c Hc. apply in_map_iff in Hc. destruct Hc as (p & <- & _). apply H. Qed.
Lemma out_pixel f bytes : forall i, (i < length bytes / 3)%nat -> out_of f (pixel_at i bytes) = pixel_at i (out_of f bytes).
Proof.
  induction bytes using ind3; intros i Hi; try (cbn in Hi; lia). cbn [length] in Hi. rewrite div3 in Hi. destruct i as [|i].
  - reflexivity.
  - unfold pixel_at. replace (3 * Datatypes.S i)%nat with (3 + 3 * i)%nat by lia. change (skipn (3 + 3 * i) (a :: b :: c :: bytes)) with (skipn (3 * i) bytes).
    change (skipn (3 + 3 * i) (out_of f (a :: b :: c :: bytes))) with (skipn (3 * i) (out_of f bytes)). apply IHbytes. lia.
Qed.
Lemma converts_by P f g h : (forall bytes, P bytes = Ret (out_of f bytes, out_of g bytes, out_of h bytes)) ->
  (forall q p, In q [f; g; h] -> Forall (fun k => (0 <= k <= 255)%Z) [rgb_r (q p); rgb_g (q p); rgb_b (q p)]) -> converts P.
Proof.
  intros E B bytes. exists (out_of f bytes), (out_of g bytes), (out_of h bytes). split; [apply E|]. split; [|split].
  - repeat apply Forall_cons; [..|apply Forall_nil]; (split; [apply out_length|apply out_range; intro; apply B; cbn; auto]).
  - intros i Hi. rewrite E, !out_pixel by exact Hi. reflexivity.
  - rewrite !E. unfold out_of. rewrite chunks_whole. reflexivity.
Qed.

(* what the loop of rgb_to_rgb makes of a buffer of the right length *)
Lemma loop_map {T U : Type} {O : RealOps T} (conv : rgbf T -> U) (s t : color_space T) xf z from :
  rgb_to_rgb_loop conv s t xf (repeat z (length from)) from = (length from, map (fun c => conv (cs_encode t (mat_mul_rgb xf (cs_decode s c)))) from).
Proof. induction from as [|c from IH]; [reflexivity|]. cbn [length repeat rgb_to_rgb_loop map]. rewrite IH. reflexivity. Qed.
Definition byte_pixel {T} {O : RealOps T} (p : Z * Z * Z) : rgbf T :=
  let '(p0, p1, p2) := p in Rgb (rof_Z p0 / rlitd 255.0)%num (rof_Z p1 / rlitd 255.0)%num (rof_Z p2 / rlitd 255.0)%num.
Definition direct {T} {O : RealOps T} (t : color_space T) (m : mat33 T) (p : Z * Z * Z) : rgbu :=
  rgb_to_u8 (cs_encode t (mat_mul_rgb m (cs_decode SRGB (byte_pixel p)))).
Definition stepwise {T} {O : RealOps T} (t : color_space T) (m n : mat33 T) (p : Z * Z * Z) : rgbu :=
  rgb_to_u8 (cs_encode t (xyz_to_rgb n (rgb_to_xyz m (cs_decode SRGB (byte_pixel p))))).
Lemma convert_by {T} {O : RealOps T} p3 m1 m2 m3 : DCI_P3 = Ret p3 -> rgb_to_rgb_matrix SRGB ADOBE_RGB_1998 = Ret m1 -> rgb_to_rgb_matrix SRGB ALEXA_WIDE_GAMUT = Ret m2 -> rgb_to_rgb_matrix SRGB p3 = Ret m3 ->
  forall bytes, convert_main bytes = Ret (out_of (direct ADOBE_RGB_1998 m1) bytes, out_of (direct ALEXA_WIDE_GAMUT m2) bytes, out_of (direct p3 m3) bytes).
Proof.
  intros E0 E1 E2 E3 bytes. unfold convert_main, rgb_to_rgb. rewrite E0. cbn [obind]. rewrite E1, E2, E3. cbn [obind]. rewrite !loop_map. cbn [snd].
  unfold out_of, bytes_to_rgb, direct. rewrite !map_map. reflexivity.
Qed.
Lemma convert_steps_by {T} {O : RealOps T} p3 m n1 n2 n3 : DCI_P3 = Ret p3 -> rgb_to_xyz_matrix (cs_white SRGB) SRGB = Ret m -> xyz_to_rgb_matrix (cs_white SRGB) ADOBE_RGB_1998 = Ret n1 ->
  xyz_to_rgb_matrix (cs_white SRGB) ALEXA_WIDE_GAMUT = Ret n2 -> xyz_to_rgb_matrix (cs_white SRGB) p3 = Ret n3 ->
  forall bytes, convert_with_matrices_main bytes = Ret (out_of (stepwise ADOBE_RGB_1998 m n1) bytes, out_of (stepwise ALEXA_WIDE_GAMUT m n2) bytes, out_of (stepwise p3 m n3) bytes).
Proof.
  intros E0 E E1 E2 E3 bytes. unfold convert_with_matrices_main. rewrite E. cbn [obind]. rewrite E0. cbn [obind]. rewrite E1, E2, E3. cbn [obind].
  unfold out_of, bytes_to_rgb, stepwise. rewrite !map_map. reflexivity.
Qed.

(* ---- f32, for every platform library ---- *)
Lemma u8_range (L : libm f32) c : let u := @rgb_to_u8 _ (f32_ops L) c in Forall (fun k => (0 <= k <= 255)%Z) [rgb_r u; rgb_g u; rgb_b u].
Proof.
  destruct (C01_quantise_total_saturating_nearest 24 128 L (fun q => f64_to_f32 (b_of_Q 53 1024 q)) c ltac:(lia)) as [(A & B & C) _].
  repeat apply Forall_cons; [apply A|apply B|apply C|apply Forall_nil].
Qed.
Definition is_ret {A} (o : outcome A) : bool := match o with Ret _ => true | _ => false end.
Lemma is_ret_ex {A} (o : outcome A) : is_ret o = true -> exists x, o = Ret x.
Proof. destruct o; try discriminate. eexists. reflexivity. Qed.
Theorem C94_convert_f32 : forall L : libm f32, converts (@convert_main _ (f32_ops L)).
Proof.
  intro L. assert (E0 : exists x, @DCI_P3 _ (f32_ops L) = Ret x) by (apply is_ret_ex; vm_compute; reflexivity). destruct E0 as [p3 E0].
  assert (E1 : exists x, @rgb_to_rgb_matrix _ (f32_ops L) (@SRGB _ (f32_ops L)) (@ADOBE_RGB_1998 _ (f32_ops L)) = Ret x) by (apply is_ret_ex; vm_compute; reflexivity). destruct E1 as [m1 E1].
  assert (E2 : exists x, @rgb_to_rgb_matrix _ (f32_ops L) (@SRGB _ (f32_ops L)) (@ALEXA_WIDE_GAMUT _ (f32_ops L)) = Ret x) by (apply is_ret_ex; vm_compute; reflexivity). destruct E2 as [m2 E2].
  assert (E3 : exists x, obind (@DCI_P3 _ (f32_ops L)) (@rgb_to_rgb_matrix _ (f32_ops L) (@SRGB _ (f32_ops L))) = Ret x) by (apply is_ret_ex; vm_compute; reflexivity). destruct E3 as [m3 E3]. rewrite E0 in E3. cbn [obind] in E3.
  eapply converts_by; [exact (convert_by p3 m1 m2 m3 E0 E1 E2 E3)|]. intros q p [<-|[<-|[<-|[]]]]; apply u8_range.
Qed.
Theorem C94_convert_with_matrices_f32 : forall L : libm f32, converts (@convert_with_matrices_main _ (f32_ops L)).
Proof.
  intro L. assert (E0 : exists x, @DCI_P3 _ (f32_ops L) = Ret x) by (apply is_ret_ex; vm_compute; reflexivity). destruct E0 as [p3 E0].
  assert (E : exists x, @rgb_to_xyz_matrix _ (f32_ops L) (cs_white (@SRGB _ (f32_ops L))) (@SRGB _ (f32_ops L)) = Ret x) by (apply is_ret_ex; vm_compute; reflexivity). destruct E as [m E].
  assert (E1 : exists x, @xyz_to_rgb_matrix _ (f32_ops L) (cs_white (@SRGB _ (f32_ops L))) (@ADOBE_RGB_1998 _ (f32_ops L)) = Ret x) by (apply is_ret_ex; vm_compute; reflexivity). destruct E1 as [m1 E1].
  assert (E2 : exists x, @xyz_to_rgb_matrix _ (f32_ops L) (cs_white (@SRGB _ (f32_ops L))) (@ALEXA_WIDE_GAMUT _ (f32_ops L)) = Ret x) by (apply is_ret_ex; vm_compute; reflexivity). destruct E2 as [m2 E2].
  assert (E3 : exists x, obind (@DCI_P3 _ (f32_ops L)) (@xyz_to_rgb_matrix _ (f32_ops L) (cs_white (@SRGB _ (f32_ops L)))) = Ret x) by (apply is_ret_ex; vm_compute; reflexivity). destruct E3 as [m3 E3]. rewrite E0 in E3. cbn [obind] in E3.
  eapply converts_by; [exact (convert_steps_by p3 m m1 m2 m3 E0 E E1 E2 E3)|]. intros q p [<-|[<-|[<-|[]]]]; apply u8_range.
Qed.

(* and what it makes of one pixel, bytes in the order R, G, B, is its conversion from sRGB by rgb_to_rgb *)
Definition rgb_bytes (c : rgbu) : list Z := [rgb_r c; rgb_g c; rgb_b c].
Theorem C94_pixel_f32 : forall (L : libm f32) (r g b : Z), let F := f32_ops L in
  exists p3 a w d, @DCI_P3 _ F = Ret p3 /\ @convert_main _ F [r; g; b] = Ret (rgb_bytes a, rgb_bytes w, rgb_bytes d)
    /\ let c : rgbf f32 := Rgb (rof_Z r / rlitd 255.0)%num (rof_Z g / rlitd 255.0)%num (rof_Z b / rlitd 255.0)%num in
       @rgb_to_rgb _ F _ (@rgb_to_u8 _ F) (@SRGB _ F) (@ADOBE_RGB_1998 _ F) [c] [Rgb 0 0 0]%Z = Ret (1%nat, [a])
       /\ @rgb_to_rgb _ F _ (@rgb_to_u8 _ F) (@SRGB _ F) (@ALEXA_WIDE_GAMUT _ F) [c] [Rgb 0 0 0]%Z = Ret (1%nat, [w])
       /\ @rgb_to_rgb _ F _ (@rgb_to_u8 _ F) (@SRGB _ F) p3 [c] [Rgb 0 0 0]%Z = Ret (1%nat, [d]).
Proof.
  intros L r g b F. assert (E0 : exists x, @DCI_P3 _ F = Ret x) by (apply is_ret_ex; vm_compute; reflexivity). destruct E0 as [p3 E0].
  assert (E1 : exists x, @rgb_to_rgb_matrix _ F (@SRGB _ F) (@ADOBE_RGB_1998 _ F) = Ret x) by (apply is_ret_ex; vm_compute; reflexivity). destruct E1 as [m1 E1].
  assert (E2 : exists x, @rgb_to_rgb_matrix _ F (@SRGB _ F) (@ALEXA_WIDE_GAMUT _ F) = Ret x) by (apply is_ret_ex; vm_compute; reflexivity). destruct E2 as [m2 E2].
  assert (E3 : exists x, obind (@DCI_P3 _ F) (@rgb_to_rgb_matrix _ F (@SRGB _ F)) = Ret x) by (apply is_ret_ex; vm_compute; reflexivity). destruct E3 as [m3 E3]. rewrite E0 in E3. cbn [obind] in E3.
  exists p3. do 3 eexists. split; [exact E0|]. split; [rewrite (convert_by p3 m1 m2 m3 E0 E1 E2 E3); reflexivity|].
  cbn zeta. unfold rgb_to_rgb. rewrite E1, E2, E3. cbn [obind]. repeat split; reflexivity.
Qed.

(* ---- exact arithmetic: the two programs write the same files ---- *)
Section Exact.
Context {K : XConst} {KO : XConstOk K}.
Definition dec_val (f : R) : R := if Rle_dec f 0.040449936 then f / 12.92 else Rpower ((f + 0.055) / 1.055) (12 / 5).
Lemma dec_val_ok f : dec_srgb_t (Fin f) = Fin (dec_val f).
Proof. unfold dec_val. destruct (Rle_dec _ _); [apply dec_srgb_lin; assumption|apply dec_srgb_pow; lra]. Qed.
Lemma byte_decoded p : exists v, cs_decode SRGB (byte_pixel p) = FinRgb v.
Proof.
  destruct p as [[a b] c]. assert (E : Q2R 255.0 = 255) by (q2r; lra).
  exists (dec_val (IZR a / 255), dec_val (IZR b / 255), dec_val (IZR c / 255)).
  unfold cs_decode, SRGB, cs_new_with_specified_matrices, dec_srgb, per_channel, byte_pixel, FinRgb. cbn [cs_eotf rgb_r rgb_g rgb_b].
  rewrite !x_of_Z, x_litd, E, !x_div by lra. rewrite !dec_val_ok. reflexivity.
Qed.
Lemma D65_usable : usable_white D65.
Proof. unfold usable_white, nonzero3, white1, D65, cat02_mat, v0, v1, v2. cbn [mapp fst snd]. repeat split; lra. Qed.
Lemma srgb_white : cs_white (@SRGB xr _) = FinXyy D65.
Proof. unfold SRGB, cs_new_with_specified_matrices, lxy, FinXyy, D65. cbn [cs_white]. xs. f_equal; apply (f_equal Fin); q2r; lra. Qed.
Lemma adobe_white : cs_white (@ADOBE_RGB_1998 xr _) = FinXyy D65.
Proof. unfold ADOBE_RGB_1998, cs_new_with_specified_matrices, lxy, FinXyy, D65. cbn [cs_white]. xs. f_equal; apply (f_equal Fin); q2r; lra. Qed.
Lemma alexa_white : cs_white (@ALEXA_WIDE_GAMUT xr _) = FinXyy D65.
Proof. unfold ALEXA_WIDE_GAMUT, cs_new_with_specified_matrices, lxy, FinXyy, D65. cbn [cs_white]. xs. f_equal; apply (f_equal Fin); q2r; lra. Qed.
Lemma adobe_fwd : exists m, xf_xyz_to_rgb (@ADOBE_RGB_1998 xr _) = FinM m.
Proof. unfold ADOBE_RGB_1998, cs_new_with_specified_matrices, FinM. cbn [xf_xyz_to_rgb]. xs. eexists (Mat33 _ _ _ _ _ _ _ _ _). reflexivity. Qed.
Lemma alexa_fwd : exists m, xf_xyz_to_rgb (@ALEXA_WIDE_GAMUT xr _) = FinM m.
Proof. unfold ALEXA_WIDE_GAMUT, cs_new_with_specified_matrices, FinM. cbn [xf_xyz_to_rgb]. xs. eexists (Mat33 _ _ _ _ _ _ _ _ _). reflexivity. Qed.

Lemma same_pixels (t : color_space xr) w f : cs_white t = FinXyy w -> v1 w <> 0 -> xf_xyz_to_rgb t = FinM f ->
  exists a m n, rgb_to_rgb_matrix SRGB t = Ret a /\ rgb_to_xyz_matrix (cs_white SRGB) SRGB = Ret m /\ xyz_to_rgb_matrix (cs_white SRGB) t = Ret n
    /\ forall bytes, out_of (direct t a) bytes = out_of (stepwise t m n) bytes.
Proof.
  intros EW HW EF. pose proof (usable_usable' _ D65_usable) as U. unfold rgb_to_rgb_matrix, rgb_to_xyz_matrix, xyz_to_rgb_matrix.
  rewrite srgb_white, EW, EF, SRGB_bwd. rewrite (cat02_white D65 w U HW), (cat02_white D65 D65 U (proj1 U)). cbn [obind]. rewrite !mat_mul_fin.
  do 3 eexists. do 3 (split; [reflexivity|]). intro bytes. unfold out_of. f_equal. apply map_ext. intro p. unfold direct, stepwise.
  destruct (byte_decoded p) as [v E]. rewrite E, mat_mul_rgb_fin, rgb_to_xyz_fin, xyz_to_rgb_fin. do 3 f_equal.
  assert (Sc : forall x, vscale (/ 100) (vscale 100 x) = x) by (intros [[x y] z]; cbn; vec_ring; field).
  rewrite Sc, cat_self, mmul_1_l, mapp_mul by exact U. reflexivity.
Qed.
End Exact.
Theorem C94_examples_agree : forall (K : XConst) (KO : XConstOk K) (bytes : list Z), convert_main bytes = convert_with_matrices_main bytes.
Proof.
  intros K KO bytes. destruct p3_built as (p3 & E0 & B). destruct B as (_ & F3 & _ & _ & _ & _ & W3). destruct adobe_fwd as [f1 F1]. destruct alexa_fwd as [f2 F2].
  assert (HD : v1 D65 <> 0) by (unfold D65, v1; cbn; lra). assert (H3 : v1 (0.314, 0.351, 1) <> 0) by (unfold v1; cbn; lra).
  destruct (same_pixels _ _ _ adobe_white HD F1) as (a1 & m & n1 & A1 & M & N1 & S1).
  destruct (same_pixels _ _ _ alexa_white HD F2) as (a2 & m2 & n2 & A2 & M2 & N2 & S2).
  destruct (same_pixels _ _ _ W3 H3 F3) as (a3 & m3 & n3 & A3 & M3 & N3 & S3).
  rewrite M in M2, M3. injection M2 as <-. injection M3 as <-.
  rewrite (convert_by p3 a1 a2 a3 E0 A1 A2 A3), (convert_steps_by p3 m n1 n2 n3 E0 M N1 N2 N3), S1, S2, S3. reflexivity.
Qed.
(* black, and one byte too many: in LogC black is 0.0928, code 24 *)
Definition second {A B C} (o : outcome (A * B * C)) : option B := match o with Ret (_, b, _) => Some b | _ => None end.
Example C94_example (L : libm f32) : exists a c, @convert_main _ (f32_ops L) [0; 0; 0; 7]%Z = Ret (a, [24; 24; 24]%Z, c) /\ length a = 3%nat /\ length c = 3%nat.
Proof.
  destruct (C94_convert_f32 L [0; 0; 0; 7]%Z) as (a & b & c & E & F & _). exists a, c.
  assert (S : second (@convert_main _ (f32_ops L) [0; 0; 0; 7]%Z) = Some [24; 24; 24]%Z) by (vm_compute; reflexivity).
  rewrite E in S. injection S as ->. inversion F as [|? ? [A _] F1]. inversion F1 as [|? ? _ F2]. inversion F2 as [|? ? [C _] _]. split; [exact E|]. split; assumption.
Qed.
Print Assumptions C94_convert_f32.
Print Assumptions C94_pixel_f32.
Print Assumptions C94_convert_with_matrices_f32.
Print Assumptions C94_examples_agree.
