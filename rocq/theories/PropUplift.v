(* C105: a colour made into a spectrum and seen under D65 is the colour again *)
From Coq Require Import Reals ZArith QArith Qreals Lra Lia Bool List.
From Flocq Require Import Core BinarySingleNaN.
From Verif Require Import Outcome RealOps MathModel ColorModel AdaptModel SpaceModel TransformModel InterpModel VspdModel UpliftModel XReal SpecLin FloatInst FloatProofs ErrProofs CurveProofs PropCurve PropSelf MatProofs AdaptProofs SpaceProofs PropSpace PropTransform ConvMat ConvProofs PropConv VspdProofs PropShape SpragueProofs SpragueErrProofs AlignProofs PropAlign XyzProofs PropDiffuser PropTables WhiteProofs PropWhite GridProofs PropXyzFloat PropXyzTables PropChecker PropReadme.
From Verif Require PropTransfer.
From Verif Require Import DataIllum DataCmf DataUplift.
Import ListNotations.
Open Scope R_scope.
Local Notation f64 := (binary_float 53 1024).
Local Notation Q := QArith_base.Q.

(* ---- the spectrum on the 85 wavelengths of to_xyz: held constant below 380 nm ---- *)
Definition pad {A} (d : A) (l : list A) : list A := let x := nth 0 l d in x :: x :: x :: x :: l.
Lemma av_first s e h vals x : 0 < h -> (2 <= length vals)%nat -> s <= e -> x <= s -> av s e h vals x = nth 0 vals 0.
Proof.
  intros Hh L Hse H. unfold av. rewrite Rmin_left, Rmax_left by lra. replace s with (s + INR 0 * h) at 2 by (cbn [INR]; ring). apply (sv_knot (K := f64_const)); [exact Hh|exact L|lia].
Qed.
Lemma padded w : length w = 81%nat -> resampled 380 780 5 w 360 780 5 = pad 0 w.
Proof.
  intro L. apply nth_ext with (d := 0) (d' := 0); [rewrite resampled_length, steps5; unfold pad; cbn [length]; rewrite L; reflexivity|].
  intros k Hk. rewrite resampled_length, steps5 in Hk. rewrite resampled_nth by (rewrite steps5; lia). do 4 (destruct k as [|k]; [cbn [nth pad]; apply av_first; try lia; try lra; cbn [INR]; lra|]).
  change (nth (S (S (S (S k)))) (pad 0 w) 0) with (nth k w 0). replace (360 + INR (S (S (S (S k)))) * 5) with (380 + INR k * 5) by (rewrite !S_INR; ring). apply (av_knot (K := f64_const)); try lra; try lia.
  assert (H : INR k <= INR 80) by (apply le_INR; lia). rewrite (INR_IZR_INZ 80) in H. change (IZR (Z.of_nat 80)) with 80 in H. lra.
Qed.
Lemma up_alignable w : length w = 81%nat -> alignable 380 780 5 w 360 780 5.
Proof.
  intro L. unfold alignable. rewrite L, (INR_IZR_INZ 81). cbn [Z.of_nat Pos.of_succ_nat Pos.succ]. rewrite Rmax_right, Rmin_left by lra. split; [lra|]. split; [lia|]. split; [lra|]. split; [lra|]. split; [lra|]. split; [lra|]. split; [apply count5|].
  split; [right; exists 4%nat; cbn [INR]; lra|left; lra].
Qed.

(* ---- its sums are linear in the colour ---- *)
Definition mix (r g b : R) (p : R * (R * R)) : R := r * fst p + g * fst (snd p) + b * snd (snd p).
Lemma dot3_mix r g b l : forall m n, dot3 (map (mix r g b) l) m n = r * dot3 (map fst l) m n + g * dot3 (map (fun p => fst (snd p)) l) m n + b * dot3 (map (fun p => snd (snd p)) l) m n.
Proof. induction l as [|[x [y z]] l IH]; intros [|a m] [|c n]; cbn [map dot3 fst snd]; try ring. rewrite IH. unfold mix. cbn [fst snd]. ring. Qed.
Fixpoint zdot3 (l m n : list Z) : Z := match l, m, n with a :: l, b :: m, c :: n => (a * b * c + zdot3 l m n)%Z | _, _, _ => 0%Z end.
Lemma zdot3_ok d e f l : d <> 0 -> e <> 0 -> f <> 0 -> forall m n, dot3 (map (fun z => IZR z / d) l) (map (fun z => IZR z / e) m) (map (fun z => IZR z / f) n) = IZR (zdot3 l m n) / (d * e * f).
Proof.
  intros Hd He Hf. induction l as [|a l IH]; intros [|b m] [|c n]; cbn [map dot3 zdot3]; try (field; repeat split; assumption). rewrite IH, plus_IZR, !mult_IZR. field. repeat split; assumption.
Qed.
Lemma pad_map {A B} (f : A -> B) d l : (1 <= length l)%nat -> map f (pad d l) = pad (f d) (map f l).
Proof. intro L. unfold pad. cbn [map]. rewrite (map_nth f l d 0). reflexivity. Qed.

Definition m17 : positive := 100000000000000000%positive.
Definition zbasis (l : list Q) : list Z := pad 0%Z (map (scaled m17) l).
Definition zi : list Z := zevery5 (zint (PropWhite.zs 10000 data_D65)).
Definition zc (l : list (Q * Q)) : list Z := zevery5 (zcmf l).
Lemma exact_red : exactly m17 data_basis_red = true. Proof. vm_compute. reflexivity. Qed.
Lemma exact_green : exactly m17 data_basis_green = true. Proof. vm_compute. reflexivity. Qed.
Lemma exact_blue : exactly m17 data_basis_blue = true. Proof. vm_compute. reflexivity. Qed.

(* columns: XYZ of the three basis spectra, in integers, over the normaliser *)
Definition zwhite : Z := zdot zi (zc data_y_bar).
Definition zcol (l : list Q) : Z * Z * Z := (zdot3 (zbasis l) zi (zc data_x_bar), zdot3 (zbasis l) zi (zc data_y_bar), zdot3 (zbasis l) zi (zc data_z_bar)).
Definition third (v : Z * Z * Z) (a b c : Z) : Z := let '(x, y, z) := v in (a * x + b * y + c * z)%Z.
(* |v / (10^4 * 10^17 * white) - t / 10^8| <= 1 / 10^8 *)
Definition within (v t n : Z) : bool := (Z.abs (v * 10000 - t * n) <=? n)%Z.
Definition col_check (l : list Q) (t0 t1 t2 : Z) : bool :=
  let v := zcol l in let n := (Zpos m17 * zwhite)%Z in (within (third v 32406 (-15372) (-4986)) t0 n && within (third v (-9689) 18758 415) t1 n && within (third v 557 (-2040) 10570) t2 n)%bool.
Lemma red_check : col_check data_basis_red 99993882 9647 8422 = true. Proof. vm_compute. reflexivity. Qed.
Lemma green_check : col_check data_basis_green 1034 100000152 7246 = true. Proof. vm_compute. reflexivity. Qed.
Lemma blue_check : col_check data_basis_blue (-3266) (-1132) 99982577 = true. Proof. vm_compute. reflexivity. Qed.
(* the columns themselves: the published sRGB primaries, to 2 / 10^4 *)
Definition prim_check (l : list Q) (a b c : Z) : bool :=
  let '(x, y, z) := zcol l in let f v t := (let n := (Zpos m17 * zwhite)%Z in Z.abs (10000 * v - t * n) <=? 2 * n)%Z in (f x a && f y b && f z c)%bool.
Lemma red_prim : prim_check data_basis_red 4124 2126 193 = true. Proof. vm_compute. reflexivity. Qed.
Lemma green_prim : prim_check data_basis_green 3576 7152 1192 = true. Proof. vm_compute. reflexivity. Qed.
Lemma blue_prim : prim_check data_basis_blue 1805 722 9505 = true. Proof. vm_compute. reflexivity. Qed.

Section P.
Context {K : XConst}.
Lemma samps_eq ss : forall a b, length a = length b -> map s_nm ss = Fins a -> map s_v ss = Fins b -> ss = FinSamps (combine a b).
Proof.
  induction ss as [|[n v] ss IH]; intros [|x a] [|y b] L A B; cbn in *; try discriminate; try reflexivity. injection A as -> A. injection B as -> B. unfold FinSamps. cbn [combine map]. f_equal. apply IH; [lia|exact A|exact B].
Qed.
Lemma uplift_is r g b : XConstOk K -> uplift_my (Rgb (Fin r) (Fin g) (Fin b)) = Ret (uspd 380 780 5 (map (refl r g b) (seq 0 81)) (Uniform (Fin 5))).
Proof.
  intro OK. destruct (C69_uplift_samples r g b OK) as ([ss sh] & E & S1 & S2 & S3). rewrite E. unfold v_wavelengths, v_values in S2, S3. cbn [v_samples v_shape] in S1, S2, S3. apply f_equal. unfold uspd. rewrite S1. unfold shape. f_equal.
  unfold even. rewrite map_length, seq_length. apply samps_eq; [rewrite grid_length, map_length, seq_length; reflexivity|exact S2|exact S3].
Qed.
Definition triples : list (R * (R * R)) := map (fun k => (Q2R (nth k data_basis_red 0%Q), (Q2R (nth k data_basis_green 0%Q), Q2R (nth k data_basis_blue 0%Q)))) (seq 0 81).
Lemma refl_mix r g b : map (refl r g b) (seq 0 81) = map (mix r g b) triples.
Proof. unfold triples. rewrite map_map. apply map_ext. intro k. unfold refl, mix. cbn [fst snd]. reflexivity. Qed.
Lemma col_z (l : list Q) (f : R * (R * R) -> R) : exactly m17 l = true -> length l = 81%nat -> f (0, (0, 0)) = 0 -> map f triples = map (fun k => Q2R (nth k l 0%Q)) (seq 0 81) ->
  map f (pad (0, (0, 0)) triples) = map (fun z => IZR z / IZR (Zpos m17)) (zbasis l).
Proof.
  intros X L F0 E. rewrite pad_map by (unfold triples; rewrite map_length, seq_length; lia). rewrite F0, E. unfold zbasis. rewrite pad_map by (rewrite map_length; lia). f_equal; [unfold Rdiv; ring|].
  rewrite map_map, <- (exactly_eq _ _ X). rewrite <- L. rewrite (as_seq l 0%Q) at 2. rewrite map_map. reflexivity.
Qed.
Definition sc (d : R) (l : list Z) : list R := map (fun z => IZR z / d) l.
Definition colz (m : R) (l i x y z : list Z) : vec := let n := m * IZR (zdot i y) in (IZR (zdot3 l i x) / n, IZR (zdot3 l i y) / n, IZR (zdot3 l i z) / n).
Lemma core r g b m d f t lr lg lb i x y z : 0 < m -> 0 < d -> 0 < f -> 0 < IZR (zdot i y) -> map fst t = sc m lr -> map (fun p => fst (snd p)) t = sc m lg -> map (fun p => snd (snd p)) t = sc m lb ->
  xyz_of (map (mix r g b) t) (sc d i) (sc f x) (sc f y) (sc f z) = FinXyz (vscale 100 (vadd (vscale r (colz m lr i x y z)) (vadd (vscale g (colz m lg i x y z)) (vscale b (colz m lb i x y z))))).
Proof.
  intros Hm Hd Hf Hn E1 E2 E3. unfold xyz_of. rewrite !dot3_mix, E1, E2, E3. unfold sc. rewrite !zdot3_ok, zdot_dotp by lra. unfold colz, vadd, vscale, FinXyz. f_equal; f_equal; field; repeat split; lra.
Qed.
Lemma white_pos : 0 < IZR zwhite. Proof. apply IZR_lt. vm_compute. reflexivity. Qed.
Lemma len_basis : length data_basis_red = 81%nat /\ length data_basis_green = 81%nat /\ length data_basis_blue = 81%nat. Proof. repeat split. Qed.
Definition column (l : list Q) : vec := colz (IZR (Zpos m17)) (zbasis l) zi (zc data_x_bar) (zc data_y_bar) (zc data_z_bar).
Definition seen_as (r g b : R) : vec := vadd (vscale r (column data_basis_red)) (vadd (vscale g (column data_basis_green)) (vscale b (column data_basis_blue))).
Theorem uplift_xyz dbg fuel r g b : XConstOk K -> (420 <= fuel)%nat ->
  exists v d65 cm, uplift_my (Rgb (Fin r) (Fin g) (Fin b)) = Ret v /\ spd_D65 = Ret d65 /\ cie_1931_2_degree = Ret cm /\ vspd_to_xyz dbg fuel v d65 cm = Ret (FinXyz (vscale 100 (seen_as r g b))).
Proof.
  intros OK F. destruct (C75_illuminants_and_cmf OK) as (_ & _ & _ & D & _). destruct (ill_source 10000 data_D65 780 97 eq_refl D ltac:(lra) ltac:(lia)) as (d65 & E1 & S1).
  destruct (cmf_source OK data_x_bar ltac:(cbn; tauto)) as (cx & C1 & X1). destruct (cmf_source OK data_y_bar ltac:(cbn; tauto)) as (cy & C2 & X2). destruct (cmf_source OK data_z_bar ltac:(cbn; tauto)) as (cz & C3 & X3).
  exists (uspd 380 780 5 (map (refl r g b) (seq 0 81)) (Uniform (Fin 5))), d65, (Cmf cx cy cz). split; [apply uplift_is, OK|]. split; [exact E1|]. split; [unfold cie_1931_2_degree; rewrite C1; cbn [obind]; rewrite C2; cbn [obind]; rewrite C3; reflexivity|].
  set (li := map _ (zint _)) in S1. set (lx := map _ _) in X1. set (ly := map _ _) in X2. set (lz := map _ _) in X3.
  assert (LW : length (map (refl r g b) (seq 0 81)) = 81%nat) by (rewrite map_length; apply seq_length).
  rewrite (to_xyz_uniform dbg fuel (uspd 380 780 5 (map (refl r g b) (seq 0 81)) (Uniform (Fin 5))) d65 (Cmf cx cy cz) li lx ly lz 5 F (conj S1 (conj X1 (conj X2 X3))) eq_refl ltac:(lra)). cbv zeta. replace (Ztrunc 5) with 5%Z by (symmetry; apply (Ztrunc_IZR 5)). cbn [Z.eqb Pos.eqb].
  assert (N1 : 0 < IZR (Zpos m17)) by (apply IZR_lt; reflexivity). assert (N2 : 0 < 625 * (209 * IZR 10000)) by lra. assert (N3 : 0 < IZR 1000000000000) by lra. pose proof white_pos as WP. unfold zwhite in WP.
  assert (Ei : every5 li = sc (625 * (209 * IZR 10000)) zi) by (exact (every5_scaled _ _)).
  assert (Ex : every5 lx = sc (IZR 1000000000000) (zc data_x_bar)) by (exact (every5_scaled _ _)). assert (Ey : every5 ly = sc (IZR 1000000000000) (zc data_y_bar)) by (exact (every5_scaled _ _)). assert (Ez : every5 lz = sc (IZR 1000000000000) (zc data_z_bar)) by (exact (every5_scaled _ _)).
  assert (Ed : dotp (every5 li) (every5 ly) <> 0). { rewrite Ei, Ey. unfold sc. rewrite zdot_dotp by lra. apply Rgt_not_eq. apply Rdiv_lt_0_compat; [exact WP|lra]. }
  rewrite (integration5 dbg fuel _ li lx ly lz (pad 0 (map (refl r g b) (seq 0 81))) F (source_length _ _ S1) (source_length _ _ X1) (source_length _ _ X2) (source_length _ _ X3)); [| |exact Ed].
  - apply f_equal. rewrite Ei, Ex, Ey, Ez, refl_mix. replace (pad 0 (map (mix r g b) triples)) with (map (mix r g b) (pad (0, (0, 0)) triples)).
    2: { rewrite pad_map by (unfold triples; rewrite map_length, seq_length; lia). f_equal. unfold mix. cbn [fst snd]. ring. }
    unfold seen_as, column. destruct len_basis as (L1 & L2 & L3). apply core; try assumption.
    + refine (col_z _ _ exact_red L1 eq_refl _). unfold triples. rewrite map_map. reflexivity.
    + refine (col_z _ _ exact_green L2 eq_refl _). unfold triples. rewrite map_map. reflexivity.
    + refine (col_z _ _ exact_blue L3 eq_refl _). unfold triples. rewrite map_map. reflexivity.
  - rewrite align_uspd by (try (rewrite steps5; lia); apply up_alignable, LW). rewrite (padded _ LW). reflexivity.
Qed.
End P.

Lemma within_ok v t n : (0 < n)%Z -> within v t n = true -> Rabs (IZR v / (10000 * IZR n) - IZR t / 10 ^ 8) <= / 10 ^ 8.
Proof.
  intros P H. apply Z.leb_le, IZR_le in H. rewrite abs_IZR, minus_IZR, !mult_IZR in H. apply IZR_lt in P. set (a := IZR v) in *. set (b := IZR t) in *. set (d := IZR n) in *. clearbody a b d.
  replace (a / (10000 * d) - b / 10 ^ 8) with ((a * 10000 - b * d) * / (10 ^ 8 * d)) by (field; lra). assert (D : 0 < 10 ^ 8 * d) by lra. rewrite Rabs_mult, (Rabs_pos_eq (/ (10 ^ 8 * d))) by (left; apply Rinv_0_lt_compat, D).
  apply Rmult_le_reg_r with (10 ^ 8 * d); [exact D|]. rewrite Rmult_assoc, Rinv_l, Rmult_1_r by lra. replace (/ 10 ^ 8 * (10 ^ 8 * d)) with d by (field; lra). exact H.
Qed.
Lemma col_gen v n t0 t1 t2 : (0 < n)%Z -> within (third v 32406 (-15372) (-4986)) t0 n = true -> within (third v (-9689) 18758 415) t1 n = true -> within (third v 557 (-2040) 10570) t2 n = true ->
  let '(x, y, z) := v in vnear (/ 10 ^ 8) (mapp (toR (toQ srgb_i)) (IZR x / IZR n, IZR y / IZR n, IZR z / IZR n)) (IZR t0 / 10 ^ 8, IZR t1 / 10 ^ 8, IZR t2 / 10 ^ 8).
Proof.
  intros P A B C. destruct v as [[x y] z]. apply within_ok in A, B, C; try exact P. apply IZR_lt in P. unfold third in A, B, C. rewrite !plus_IZR, !mult_IZR in A, B, C. unfold vnear, srgb_i, toQ, toR, mapp, v0, v1, v2. cbn [fst snd].
  assert (G : forall a b c d t, Q2R (a # 10000) = IZR a / 10000 -> Q2R (b # 10000) = IZR b / 10000 -> Q2R (c # 10000) = IZR c / 10000 -> d = IZR n -> Rabs ((IZR a * IZR x + IZR b * IZR y + IZR c * IZR z) / (10000 * d) - t) <= / 10 ^ 8 -> Rabs (Q2R (a # 10000) * (IZR x / d) + Q2R (b # 10000) * (IZR y / d) + Q2R (c # 10000) * (IZR z / d) - t) <= / 10 ^ 8).
  { intros a b c d t -> -> -> E H. replace (IZR a / 10000 * (IZR x / d) + IZR b / 10000 * (IZR y / d) + IZR c / 10000 * (IZR z / d)) with ((IZR a * IZR x + IZR b * IZR y + IZR c * IZR z) / (10000 * d)) by (field; lra). exact H. }
  split; [|split]; apply G; try reflexivity; assumption.
Qed.
Lemma col_fact l t0 t1 t2 : col_check l t0 t1 t2 = true -> vnear (/ 10 ^ 8) (mapp (toR (toQ srgb_i)) (column l)) (IZR t0 / 10 ^ 8, IZR t1 / 10 ^ 8, IZR t2 / 10 ^ 8).
Proof.
  intro H. unfold col_check in H. cbv zeta in H. rewrite !andb_true_iff in H. destruct H as [[A B] C]. assert (P : (0 < Zpos m17 * zwhite)%Z) by (apply Z.mul_pos_pos; [reflexivity|apply lt_IZR, white_pos]).
  pose proof (col_gen _ _ _ _ _ P A B C) as H. unfold zcol in H. unfold column, colz. cbv zeta. fold zwhite. rewrite <- mult_IZR. exact H.
Qed.
Lemma prim_gen v n a b c : (0 < n)%Z -> (let '(x, y, z) := v in let f v t := (Z.abs (10000 * v - t * n) <=? 2 * n)%Z in (f x a && f y b && f z c)%bool) = true ->
  let '(x, y, z) := v in vnear (2 / 10 ^ 4) (IZR x / IZR n, IZR y / IZR n, IZR z / IZR n) (IZR a / 10 ^ 4, IZR b / 10 ^ 4, IZR c / 10 ^ 4).
Proof.
  intros P H. destruct v as [[x y] z]. cbv zeta in H. rewrite !andb_true_iff in H. destruct H as [[A B] C]. apply IZR_lt in P. unfold vnear, v0, v1, v2. cbn [fst snd].
  assert (G : forall w t, (Z.abs (10000 * w - t * n) <=? 2 * n)%Z = true -> Rabs (IZR w / IZR n - IZR t / 10 ^ 4) <= 2 / 10 ^ 4).
  { clear - P. intros w t H. apply Z.leb_le, IZR_le in H. rewrite abs_IZR, minus_IZR, !mult_IZR in H. set (d := IZR n) in *. clearbody d. replace (IZR w / d - IZR t / 10 ^ 4) with ((10000 * IZR w - IZR t * d) * / (10 ^ 4 * d)) by (field; lra).
    assert (D : 0 < 10 ^ 4 * d) by lra. rewrite Rabs_mult, (Rabs_pos_eq (/ (10 ^ 4 * d))) by (left; apply Rinv_0_lt_compat, D). apply Rmult_le_reg_r with (10 ^ 4 * d); [exact D|]. rewrite Rmult_assoc, Rinv_l, Rmult_1_r by lra. replace (2 / 10 ^ 4 * (10 ^ 4 * d)) with (2 * d) by (field; lra). exact H. }
  split; [|split]; apply G; assumption.
Qed.
Lemma prim_fact l a b c : prim_check l a b c = true -> vnear (2 / 10 ^ 4) (column l) (IZR a / 10 ^ 4, IZR b / 10 ^ 4, IZR c / 10 ^ 4).
Proof.
  intro H. assert (P : (0 < Zpos m17 * zwhite)%Z) by (apply Z.mul_pos_pos; [reflexivity|apply lt_IZR, white_pos]). pose proof (prim_gen (zcol l) _ a b c P H) as G. unfold zcol in G. unfold column, colz. cbv zeta. fold zwhite. rewrite <- mult_IZR. exact G.
Qed.

(* what comes back from linear r g b *)
Definition back_r (r g b : R) : R := 0.99993882 * r + 0.00001034 * g - 0.00003266 * b.
Definition back_g (r g b : R) : R := 0.00009647 * r + 1.00000152 * g - 0.00001132 * b.
Definition back_b (r g b : R) : R := 0.00008422 * r + 0.00007246 * g + 0.99982577 * b.
Definition size (r g b : R) : R := Rabs r + Rabs g + Rabs b.
Lemma mapp_mix m r g b p q s : mapp m (vadd (vscale r p) (vadd (vscale g q) (vscale b s))) = vadd (vscale r (mapp m p)) (vadd (vscale g (mapp m q)) (vscale b (mapp m s))).
Proof. destruct m, p as [[? ?] ?], q as [[? ?] ?], s as [[? ?] ?]. unfold mapp, vadd, vscale, v0, v1, v2. cbn [fst snd]. repeat (f_equal; try ring). Qed.
Lemma near_mix e r g b p q s p' q' s' : 0 <= e -> vnear e p p' -> vnear e q q' -> vnear e s s' ->
  vnear (e * size r g b) (vadd (vscale r p) (vadd (vscale g q) (vscale b s))) (vadd (vscale r p') (vadd (vscale g q') (vscale b s'))).
Proof.
  intros E (A1 & A2 & A3) (B1 & B2 & B3) (C1 & C2 & C3). destruct p as [[? ?] ?], q as [[? ?] ?], s as [[? ?] ?], p' as [[? ?] ?], q' as [[? ?] ?], s' as [[? ?] ?]. unfold vnear, vadd, vscale, v0, v1, v2 in *. cbn [fst snd] in *.
  assert (G : forall x y z x' y' z', Rabs (x - x') <= e -> Rabs (y - y') <= e -> Rabs (z - z') <= e -> Rabs (r * x + (g * y + b * z) - (r * x' + (g * y' + b * z'))) <= e * size r g b).
  { clear - E. intros x y z x' y' z' A B C. replace (r * x + (g * y + b * z) - (r * x' + (g * y' + b * z'))) with (r * (x - x') + (g * (y - y') + b * (z - z'))) by ring. eapply Rle_trans; [apply Rabs_triang|]. eapply Rle_trans; [apply Rplus_le_compat_l, Rabs_triang|]. rewrite !Rabs_mult. unfold size.
    pose proof (Rabs_pos r). pose proof (Rabs_pos g). pose proof (Rabs_pos b). assert (Rabs r * Rabs (x - x') <= Rabs r * e) by (apply Rmult_le_compat_l; assumption). assert (Rabs g * Rabs (y - y') <= Rabs g * e) by (apply Rmult_le_compat_l; assumption). assert (Rabs b * Rabs (z - z') <= Rabs b * e) by (apply Rmult_le_compat_l; assumption). lra. }
  split; [|split]; apply G; assumption.
Qed.
Section T.
Context {K : XConst}.
Theorem C105_linear dbg fuel r g b : XConstOk K -> (420 <= fuel)%nat ->
  exists v d65 cm x y z m r' g' b', uplift_my (Rgb (Fin r) (Fin g) (Fin b)) = Ret v /\ spd_D65 = Ret d65 /\ cie_1931_2_degree = Ret cm
  /\ vspd_to_xyz dbg fuel v d65 cm = Ret (Xyz (Fin x) (Fin y) (Fin z)) /\ xyz_to_rgb_matrix (cs_white SRGB) SRGB = Ret m /\ xyz_to_rgb m (Xyz (Fin x) (Fin y) (Fin z)) = Rgb (Fin r') (Fin g') (Fin b')
  /\ Rabs (x / 100 - (0.4124 * r + 0.3576 * g + 0.1805 * b)) <= 2 / 10 ^ 4 * size r g b
  /\ Rabs (y / 100 - (0.2126 * r + 0.7152 * g + 0.0722 * b)) <= 2 / 10 ^ 4 * size r g b
  /\ Rabs (z / 100 - (0.0193 * r + 0.1192 * g + 0.9505 * b)) <= 2 / 10 ^ 4 * size r g b
  /\ Rabs (r' - back_r r g b) <= / 10 ^ 8 * size r g b /\ Rabs (g' - back_g r g b) <= / 10 ^ 8 * size r g b /\ Rabs (b' - back_b r g b) <= / 10 ^ 8 * size r g b.
Proof.
  intros OK F. destruct (uplift_xyz dbg fuel r g b OK F) as (v & d65 & cm & E1 & E2 & E3 & E4).
  pose proof (near_mix (2 / 10 ^ 4) r g b _ _ _ _ _ _ ltac:(lra) (prim_fact _ _ _ _ red_prim) (prim_fact _ _ _ _ green_prim) (prim_fact _ _ _ _ blue_prim)) as N. pose proof (near_mix (/ 10 ^ 8) r g b _ _ _ _ _ _ ltac:(lra) (col_fact _ _ _ _ red_check) (col_fact _ _ _ _ green_check) (col_fact _ _ _ _ blue_check)) as M.
  rewrite <- mapp_mix in M. fold (seen_as r g b) in M, N. pose proof (xyz_to_rgb_fin K (toR (toQ srgb_i)) (vscale 100 (seen_as r g b))) as E5. set (s := seen_as r g b) in *. clearbody s. destruct s as [[x y] z].
  replace (vscale (/ 100) (vscale 100 (x, y, z))) with (x, y, z) in E5 by (unfold vscale; f_equal; [f_equal|]; field). set (m := toR (toQ srgb_i)) in *. destruct (mapp m (x, y, z)) as [[r' g'] b'] eqn:EM.
  exists v, d65, cm, (100 * x), (100 * y), (100 * z), (FinM m), r', g', b'. split; [exact E1|]. split; [exact E2|]. split; [exact E3|]. split; [exact E4|]. split; [apply srgb_matrix, OK|]. split; [exact E5|].
  clear - M N. destruct N as (N1 & N2 & N3). destruct M as (M1 & M2 & M3). unfold v0, v1, v2, vadd, vscale in N1, N2, N3, M1, M2, M3. cbn [fst snd] in N1, N2, N3, M1, M2, M3. unfold back_r, back_g, back_b.
  assert (G : forall p q p' q' e, p = p' -> q = q' -> Rabs (p - q) <= e -> Rabs (p' - q') <= e) by (intros p q p' q' e <- <-; trivial).
  split; [refine (G _ _ _ _ _ _ _ N1)|split; [refine (G _ _ _ _ _ _ _ N2)|split; [refine (G _ _ _ _ _ _ _ N3)|split; [refine (G _ _ _ _ _ _ _ M1)|split; [refine (G _ _ _ _ _ _ _ M2)|refine (G _ _ _ _ _ _ _ M3)]]]]]; clear; lra.
Qed.
End T.

(* ---- 8-bit pixels ---- *)
Definition respectral {T} {O : RealOps T} (dbg : bool) (fuel : nat) (p : rgbu) : outcome rgbu :=
  let! spd := uplift_my (cs_decode SRGB (rgb_of_u8 p)) in
  let! d65 := spd_D65 in
  let! cm := cie_1931_2_degree in
  let! c := vspd_to_xyz dbg fuel spd d65 cm in
  let! xf := xyz_to_rgb_matrix (cs_white SRGB) SRGB in
  Ret (rgb_to_u8 (cs_encode SRGB (xyz_to_rgb xf c))).
Definition pixel (p : rgbu) : Prop := (0 <= rgb_r p <= 255 /\ 0 <= rgb_g p <= 255 /\ 0 <= rgb_b p <= 255)%Z.
(* red and green exactly, blue within one code *)
Definition survives (p q : rgbu) : Prop := rgb_r q = rgb_r p /\ rgb_g q = rgb_g p /\ (Z.abs (rgb_b q - rgb_b p) <= 1)%Z.

Local Notation enc := (encR 12.92 0.055 1.055 2.4 0.0031308).
Local Notation dec := (decR 12.92 0.055 1.055 2.4 (0.0031308 * 12.92)).
Lemma enc_pow_lip x y : 0.0031308 <= x <= y -> 0 <= 1.055 * Rpower y (/ 2.4) - 1.055 * Rpower x (/ 2.4) <= 13 * (y - x).
Proof.
  intros [A B]. pose proof knee_srgb as J. apply Rabs_le_inv in J. set (t := 0.0031308) in *. assert (T0 : t = 0.0031308) by reflexivity. clearbody t. assert (TP : 0.0031 < t) by lra.
  assert (SPL : forall z w, 0 < z -> 0 < w -> Rpower w (/ 2.4) = Rpower z (/ 2.4) * Rpower (w / z) (/ 2.4)). { intros z w Z0 W0. rewrite Rpower_mult_distr; [f_equal; field; lra|exact Z0|apply Rmult_lt_0_compat; [exact W0|apply Rinv_0_lt_compat, Z0]]. }
  assert (X0 : 0 < Rpower x (/ 2.4)) by apply exp_pos. assert (W0 : 0 < Rpower t (/ 2.4)) by apply exp_pos.
  split. { pose proof (Rle_Rpower_l x y (/ 2.4) ltac:(lra) ltac:(lra)). lra. }
  assert (YX : y / x * x = y) by (field; lra). set (r := y / x) in *. assert (R0 : 1 <= r) by (apply (Rmult_le_reg_r x); lra).
  assert (XT : x / t * t = x) by (field; lra). set (q := x / t) in *. assert (Q0 : 1 <= q) by (apply (Rmult_le_reg_r t); lra).
  pose proof (RelErr.bernoulli r (/ 2.4) ltac:(lra) ltac:(lra)) as B1. pose proof (RelErr.pow_above q (/ 2.4) Q0 ltac:(lra)) as B2.
  assert (E2 : / 2.4 * (1.055 * Rpower x (/ 2.4)) <= 13 * x).
  { rewrite (SPL t x) by lra. fold q. set (w := Rpower t (/ 2.4)) in *. set (s := Rpower q (/ 2.4)) in *. assert (W1 : / 2.4 * (1.055 * w) <= 13 * t) by lra. apply Rle_trans with (/ 2.4 * (1.055 * w) * q).
    - replace (/ 2.4 * (1.055 * (w * s))) with (/ 2.4 * (1.055 * w) * s) by ring. apply Rmult_le_compat_l; lra.
    - apply Rle_trans with (13 * t * q); [apply Rmult_le_compat_r; lra|]. rewrite <- XT. lra. }
  rewrite (SPL x y) by lra. fold r. set (p := Rpower x (/ 2.4)) in *. set (s := Rpower r (/ 2.4)) in *.
  assert (E1 : p * s <= p * (1 + / 2.4 * (r - 1))) by (apply Rmult_le_compat_l; lra). assert (E3 : / 2.4 * (1.055 * p) * (r - 1) <= 13 * x * (r - 1)) by (apply Rmult_le_compat_r; lra). lra.
Qed.
Lemma enc_up x y : x <= y -> -3e-8 <= enc y - enc x <= 13 * (y - x) + 3e-8.
Proof.
  intro H. pose proof knee_srgb as J. apply Rabs_le_inv in J. unfold encR. destruct (Rle_dec y 0.0031308) as [Y|Y], (Rle_dec x 0.0031308) as [X|X]; try lra.
  - pose proof (enc_pow_lip 0.0031308 y ltac:(lra)). lra.
  - pose proof (enc_pow_lip x y ltac:(lra)). lra.
Qed.
Lemma enc_near x y e : Rabs (x - y) <= e -> Rabs (enc x - enc y) <= 13 * e + 3e-8.
Proof.
  intro H. apply Rabs_le_inv in H. apply Rabs_le. destruct (Rle_dec x y) as [C|C]; [pose proof (enc_up x y C)|pose proof (enc_up y x ltac:(lra))]; lra.
Qed.
Lemma enc_dec X : enc (dec X) = X.
Proof. pose proof (PropTransfer.C30_srgb_encode_decode (K := f64_const) X) as E. rewrite (proj1 (srgb_x (K := f64_const))), (proj2 (srgb_x (K := f64_const))) in E. injection E as E. exact E. Qed.
Lemma dec_01 X : 0 <= X <= 1 -> 0 <= dec X <= 1.
Proof.
  intro H. unfold decR. destruct (Rle_dec X (0.0031308 * 12.92)) as [C|C]; [lra|]. assert (A : 0 < (X + 0.055) / 1.055 <= 1) by lra. split; [apply Rlt_le, exp_pos|]. apply Rle_trans with (Rpower 1 2.4); [apply Rle_Rpower_l; lra|unfold Rpower; rewrite ln_1, Rmult_0_r, exp_0; lra].
Qed.
Lemma code_of_unit c : (0 <= c <= 255)%Z -> 0 <= IZR c / 255 <= 1.
Proof. intros [A B]. apply IZR_le in A, B. lra. Qed.
Lemma keep_code {K : XConst} c y e w : (0 <= c <= 255)%Z -> Rabs (y - dec (IZR c / 255)) <= e -> 255 * (13 * e + 3e-8) < / 2 + IZR w -> (Z.abs (quantize 255 (Fin (enc y)) - c) <= w)%Z.
Proof.
  intros C H B. apply enc_near in H. rewrite enc_dec in H. apply clampR_near in H. rewrite (clampR_mid (IZR c / 255)) in H by (apply code_of_unit, C). pose proof (xquant 255 (enc y) ltac:(lia)) as Q. change (IZR 255) with 255 in Q.
  apply int_gap. apply Rabs_le_inv in H, Q. apply Rabs_def1; lra.
Qed.
Lemma returns r g b r' g' b' : 0 <= r <= 1 -> 0 <= g <= 1 -> 0 <= b <= 1 -> Rabs (r' - back_r r g b) <= / 10 ^ 8 * size r g b -> Rabs (g' - back_g r g b) <= / 10 ^ 8 * size r g b -> Rabs (b' - back_b r g b) <= / 10 ^ 8 * size r g b ->
  Rabs (r' - r) <= 0.0001 /\ Rabs (g' - g) <= 0.0001 /\ Rabs (b' - b) <= 0.000175.
Proof.
  intros Hr Hg Hb A B C. unfold size, back_r, back_g, back_b in *. rewrite (Rabs_pos_eq r), (Rabs_pos_eq g), (Rabs_pos_eq b) in A, B, C by lra. apply Rabs_le_inv in A, B, C. split; [|split]; apply Rabs_le; lra.
Qed.
Section U.
Context {K : XConst}.
Lemma decode_x p : cs_decode SRGB (rgb_of_u8 p) = Rgb (Fin (dec (IZR (rgb_r p) / 255))) (Fin (dec (IZR (rgb_g p) / 255))) (Fin (dec (IZR (rgb_b p) / 255))).
Proof.
  assert (D : forall c, dequantize 255 c = Fin (IZR c / 255)). { intro c. unfold dequantize. cbn [rdiv rof_Z rlitd xr_ops]. rewrite q2r_int. change (IZR 255) with 255. rewrite x_div by lra. reflexivity. }
  unfold rgb_of_u8, rgb_of_uint. rewrite !D. unfold cs_decode, SRGB, cs_new_with_specified_matrices. cbn [cs_eotf]. unfold dec_srgb, per_channel. cbn [rgb_r rgb_g rgb_b]. rewrite !(proj1 srgb_x). reflexivity.
Qed.
Theorem C105_pixels_exact dbg fuel p : XConstOk K -> (420 <= fuel)%nat -> pixel p -> exists q, respectral dbg fuel p = Ret q /\ survives p q.
Proof.
  intros OK F (P1 & P2 & P3). unfold respectral. rewrite decode_x. set (r := dec _). set (g := dec (IZR (rgb_g p) / 255)). set (b := dec (IZR (rgb_b p) / 255)).
  assert (Hr : 0 <= r <= 1) by (apply dec_01, code_of_unit, P1). assert (Hg : 0 <= g <= 1) by (apply dec_01, code_of_unit, P2). assert (Hb : 0 <= b <= 1) by (apply dec_01, code_of_unit, P3).
  destruct (C105_linear dbg fuel r g b OK F) as (v & d65 & cm & x & y & z & m & r' & g' & b' & E1 & E2 & E3 & E4 & E5 & E6 & _ & _ & _ & A & B & C). rewrite E1. cbn [obind]. rewrite E2. cbn [obind]. rewrite E3. cbn [obind]. rewrite E4. cbn [obind]. rewrite E5. cbn [obind]. rewrite E6.
  destruct (returns r g b r' g' b' Hr Hg Hb A B C) as (A' & B' & C'). eexists. split; [reflexivity|]. clear E1 E2 E3 E4 E5 E6 A B C. unfold cs_encode, SRGB, cs_new_with_specified_matrices. cbn [cs_oetf]. unfold enc_srgb, per_channel. cbn [rgb_r rgb_g rgb_b]. rewrite !(proj2 srgb_x).
  unfold survives, rgb_to_u8, rgb_to_uint. cbn [rgb_r rgb_g rgb_b].
  pose proof (keep_code _ _ _ 0 P1 A' ltac:(lra)). pose proof (keep_code _ _ _ 0 P2 B' ltac:(lra)). pose proof (keep_code _ _ _ 1 P3 C' ltac:(lra)). lia.
Qed.
(* blue really may move: 255 255 5 comes back with blue 6 *)
Example C105_blue_example dbg : XConstOk K -> exists q, respectral dbg 420 (Rgb 255 255 5)%Z = Ret q /\ rgb_b q = 6%Z.
Proof.
  intro OK. unfold respectral. rewrite decode_x. cbn [rgb_r rgb_g rgb_b]. assert (D1 : dec (255 / 255) = 1).
  { unfold decR. destruct (Rle_dec (255 / 255) (0.0031308 * 12.92)) as [N|N]; [lra|]. replace ((255 / 255 + 0.055) / 1.055) with 1 by lra. unfold Rpower. rewrite ln_1, Rmult_0_r, exp_0. reflexivity. }
  assert (D5 : dec (5 / 255) = 5 / 255 / 12.92). { unfold decR. destruct (Rle_dec (5 / 255) (0.0031308 * 12.92)) as [N|N]; [reflexivity|lra]. }
  rewrite D1, D5. destruct (C105_linear dbg 420 1 1 (5 / 255 / 12.92) OK ltac:(lia)) as (v & d65 & cm & x & y & z & m & r' & g' & b' & E1 & E2 & E3 & E4 & E5 & E6 & _ & _ & _ & _ & _ & C). rewrite E1. cbn [obind]. rewrite E2. cbn [obind]. rewrite E3. cbn [obind]. rewrite E4. cbn [obind]. rewrite E5. cbn [obind]. rewrite E6.
  eexists. split; [reflexivity|]. clear E1 E2 E3 E4 E5 E6. unfold cs_encode, SRGB, cs_new_with_specified_matrices. cbn [cs_oetf]. unfold enc_srgb, per_channel. cbn [rgb_r rgb_g rgb_b]. rewrite !(proj2 srgb_x). unfold rgb_to_u8, rgb_to_uint. cbn [rgb_b].
  unfold back_b, size in C. rewrite !Rabs_R1, (Rabs_pos_eq (5 / 255 / 12.92)) in C by lra. apply Rabs_le_inv in C.
  assert (E : enc b' = 12.92 * b'). { unfold encR. destruct (Rle_dec b' 0.0031308) as [N|N]; [lra|exfalso; lra]. } rewrite E.
  pose proof (xquant 255 (12.92 * b') ltac:(lia)) as Q. rewrite clampR_mid in Q by lra. change (IZR 255) with 255 in Q. enough (Z.abs (quantize 255 (Fin (12.92 * b')) - 6) <= 0)%Z by lia. apply int_gap. change (IZR 6) with 6. change (IZR 0) with 0. apply Rabs_le_inv in Q. apply Rabs_def1; lra.
Qed.
End U.

(* ---- in f64 ---- *)
Lemma f2_maps {A B C} (P : B -> C -> Prop) (f : A -> B) (g : A -> C) l : (forall k, In k l -> P (f k) (g k)) -> Forall2 P (map f l) (map g l).
Proof. induction l as [|x l IH]; intro H; [constructor|]. cbn [map]. constructor; [apply H; left; reflexivity|]. apply IH. intros k Hk. apply H. right. exact Hk. Qed.
Lemma nth_seq_map {A} (f : nat -> A) n k d : (k < n)%nat -> nth k (map f (seq 0 n)) d = f k.
Proof. intro H. rewrite (nth_indep _ d (f 0%nat)) by (rewrite map_length, seq_length; exact H). rewrite map_nth, seq_nth by exact H. reflexivity. Qed.
Lemma ret_inj {A} (x y : A) : Ret x = Ret y -> x = y. Proof. intro H. injection H. trivial. Qed.
Definition zup (r g b : R) : list (Z * R) := map (fun k => ((380 + Z.of_nat k * 5)%Z, refl r g b k)) (seq 0 81).
Lemma keys_sorted (f : nat -> R) n : forall a, zsorted (map (fun k => ((380 + Z.of_nat k * 5)%Z, f k)) (seq a n)) /\ Forall (fun p => (380 + Z.of_nat a * 5 <= fst p)%Z) (map (fun k => ((380 + Z.of_nat k * 5)%Z, f k)) (seq a n)).
Proof.
  induction n as [|n IH]; intro a; [split; constructor|]. destruct (IH (S a)) as [A B]. cbn [seq map]. split; constructor; try exact A; try (cbn [fst]; lia); eapply Forall_impl; try exact B; cbn [fst]; intros p H; lia.
Qed.
Lemma zup_xspd r g b : xspd (zup r g b) 380 780 (Uniform (Fin (IZR 5))) = uspd 380 780 5 (map (refl r g b) (seq 0 81)) (Uniform (Fin 5)).
Proof.
  unfold xspd, uspd. f_equal. f_equal. unfold even. rewrite map_length, seq_length. unfold grid. rewrite combine_maps. unfold zr, zup. rewrite map_map. apply map_ext. intro k. cbn [fst snd]. rewrite plus_IZR, mult_IZR, <- INR_IZR_INZ. reflexivity.
Qed.
Lemma zup_ok r g b : zsorted (zup r g b) /\ length (zup r g b) = 81%nat /\ Forall small (map fst (zup r g b)) /\ first_key (zup r g b) = 380%Z /\ last_key (zup r g b) = 780%Z.
Proof.
  split; [apply (keys_sorted (refl r g b) 81 0)|]. assert (L : length (zup r g b) = 81%nat) by (unfold zup; rewrite map_length; apply seq_length). split; [exact L|]. split.
  - unfold zup. rewrite map_map. apply Forall_forall. intros z I. apply in_map_iff in I. destruct I as (k & <- & I). apply in_seq in I. unfold small. cbn [fst]. lia.
  - unfold last_key. rewrite L. split; reflexivity.
Qed.

Section F.
Context (L : libm f64) (PI : powi5_ok 53 1024 (l_powi L)) (PW : powf_ok 53 1024 (l_powf L)) (PV : powf_wide 53 1024 (l_powf L)) (AP : approx_same L).
Notation ops := (b_ops 53 1024 L (b_of_Q 53 1024)).
Notation u := (bpow radix2 (- (53))).
Notation z0 := (b_of_Z 53 1024 0).
Definition nms_check (l : list f64) : bool := (Nat.eqb (length l) 81 && forallb (fun k => is_finite (nth k l z0) && Beqb (nth k l z0) (b_of_Z 53 1024 (380 + Z.of_nat k * 5))) (seq 0 81))%bool.
Lemma iter_check : match @shape_iter _ ops (@my_shape _ ops) with Ret l => nms_check l | _ => false end = true. Proof. vm_compute. reflexivity. Qed.
Lemma count_check : (Nat.eqb (S (@as_usize _ ops (@rdiv _ ops (@rsub _ ops (sh_end (@my_shape _ ops)) (sh_start (@my_shape _ ops))) (@rlitd _ ops 5.0)))) 81) = true. Proof. vm_compute. reflexivity. Qed.
Lemma from_values_f : exists nms, length nms = 81%nat /\ (forall k, (k < 81)%nat -> isZ (380 + Z.of_nat k * 5) (nth k nms z0)) /\
  forall vs, length vs = 81%nat -> exists v, @vspd_from_values _ ops (@my_shape _ ops) vs = Ret v /\ v_wavelengths v = nms /\ v_values v = vs.
Proof.
  pose proof iter_check as H. destruct (shape_iter _) as [l| |] eqn:E; try discriminate H. apply andb_true_iff in H. destruct H as [A B]. apply Nat.eqb_eq in A. rewrite forallb_forall in B. exists l. split; [exact A|]. split.
  - intros k Hk. specialize (B k ltac:(apply in_seq; lia)). apply andb_true_iff in B. destruct B as [B1 B2]. destruct (isZ_of (380 + Z.of_nat k * 5) ltac:(lia)) as (F & V). split; [exact B1|]. rewrite Beqb_correct in B2 by assumption. rewrite <- V. destruct (Req_bool_spec (B2R (nth k l z0)) (B2R (b_of_Z 53 1024 (380 + Z.of_nat k * 5)))); [assumption|discriminate B2].
  - intros vs Lv. unfold vspd_from_values. rewrite Lv. cbn [Nat.ltb Nat.leb]. pose proof count_check as C. apply Nat.eqb_eq in C. change (sh_interval (@my_shape _ ops)) with (Uniform (@rlitd _ ops 5.0)). cbv iota zeta. rewrite C, E. cbn [Nat.eqb negb obind]. eexists. split; [reflexivity|].
    unfold v_wavelengths, v_values. cbn [v_samples]. rewrite !map_map. split.
    + rewrite (map_ext _ fst) by (intros [? ?]; reflexivity). apply map_combine_fst. lia.
    + rewrite (map_ext _ snd) by (intros [? ?]; reflexivity). apply map_combine_snd. lia.
Qed.
Lemma fdot_near a b c x y z B : is_finite a = true -> is_finite b = true -> is_finite c = true -> is_finite x = true -> is_finite y = true -> is_finite z = true -> adot 53 1024 a b c x y z <= B -> B <= 1000 ->
  is_finite (fdot 53 1024 a b c x y z) = true /\ Rabs (B2R (fdot 53 1024 a b c x y z) - edot 53 1024 a b c x y z) <= 4 * u * B + u / 100.
Proof.
  intros Fa Fb Fc Fx Fy Fz A H. assert (F : is_finite (fdot 53 1024 a b c x y z) = true) by (apply fdot_finite; try assumption; [lia|]; apply Rle_trans with (bpow radix2 10); [change (bpow radix2 10) with 1024; lra|apply bpow_le; lia]). split; [exact F|].
  pose proof (fdot_err 53 1024 a b c x y z ltac:(lia) F) as E. assert (ET : 4 * bpow radix2 (2 - 1024 - 53) <= u / 100). { apply Rle_trans with (4 * bpow radix2 (-70)); [apply Rmult_le_compat_l; [lra|apply bpow_le; lia]|]. change (bpow radix2 (-70)) with (/ 1180591620717411303424). change u with (/ 9007199254740992). lra. }
  eapply Rle_trans; [exact E|]. apply Rplus_le_compat; [|exact ET]. apply Rmult_le_compat_l; [|exact A]. pose proof (bpow_ge_0 radix2 (- (53))). lra.
Qed.
(* one sample of the spectrum *)
Lemma sample_near k (r g b : f64) : (k < 81)%nat -> is_finite r = true -> is_finite g = true -> is_finite b = true -> Rabs (B2R r) <= 1.01 -> Rabs (B2R g) <= 1.01 -> Rabs (B2R b) <= 1.01 ->
  vrel 8 1 (refl (B2R r) (B2R g) (B2R b) k) (fdot 53 1024 (b_of_Q 53 1024 (nth k data_basis_red 0%Q)) (b_of_Q 53 1024 (nth k data_basis_green 0%Q)) (b_of_Q 53 1024 (nth k data_basis_blue 0%Q)) r g b).
Proof.
  intros Hk Fr Fg Fb Hr Hg Hb. destruct (basis_facts _ _ _ (basis_nth k Hk)) as (P1 & P2 & P3 & P4). set (qr := nth k data_basis_red 0%Q) in *. set (qg := nth k data_basis_green 0%Q) in *. set (qb := nth k data_basis_blue 0%Q) in *.
  assert (X : 0.99999 = 99999 / 100000 /\ 1.00001 = 100001 / 100000) by (clear; split; q2r; lra). destruct X as [X1 X2]. rewrite X1, X2 in P4. clear X1 X2.
  destruct (lit_rel qr (Q2R qr + / 100) P1 ltac:(lra)) as (F1 & _ & D1). destruct (lit_rel qg (Q2R qg + / 100) P2 ltac:(lra)) as (F2 & _ & D2). destruct (lit_rel qb (Q2R qb + / 100) P3 ltac:(lra)) as (F3 & _ & D3). rewrite Rmult_1_l in D1, D2, D3.
  pose proof (bpow_gt_0 radix2 (- (53))) as U0. assert (U1 : u <= / 1000000) by (change u with (/ 9007199254740992); lra). set (wr := b_of_Q 53 1024 qr) in *. set (wg := b_of_Q 53 1024 qg) in *. set (wb := b_of_Q 53 1024 qb) in *.
  assert (T : forall (w c : f64) q, 0 <= q <= 1.001 -> Rabs (B2R c) <= 1.01 -> Rabs (B2R w - q) <= u * (q + / 100) -> Rabs (B2R w * B2R c) <= 1.01 * (q + / 100) /\ Rabs (B2R w * B2R c - q * B2R c) <= 1.01 * (u * (q + / 100))).
  { intros w c q Hq Hc D. replace (B2R w * B2R c - q * B2R c) with ((B2R w - q) * B2R c) by ring. assert (M : u * (q + / 100) <= / 1000000 * 1.1) by (apply Rmult_le_compat; lra). assert (W : Rabs (B2R w) <= q + / 100) by (apply Rabs_le_inv in D; apply Rabs_le; lra).
    rewrite !Rabs_mult. split; [apply Rle_trans with ((q + / 100) * 1.01)|apply Rle_trans with (u * (q + / 100) * 1.01)]; try lra; apply Rmult_le_compat; try apply Rabs_pos; lra. }
  destruct (T wr r (Q2R qr) ltac:(lra) Hr D1) as [A1 B1]. destruct (T wg g (Q2R qg) ltac:(lra) Hg D2) as [A2 B2]. destruct (T wb b (Q2R qb) ltac:(lra) Hb D3) as [A3 B3]. clear T.
  destruct (fdot_near wr wg wb r g b 1.1 F1 F2 F3 Fr Fg Fb ltac:(unfold adot; lra) ltac:(lra)) as [F E]. split; [exact F|]. unfold refl. fold qr qg qb. unfold edot in E.
  replace (B2R r * Q2R qr) with (Q2R qr * B2R r) by ring. replace (B2R g * Q2R qg) with (Q2R qg * B2R g) by ring. replace (B2R b * Q2R qb) with (Q2R qb * B2R b) by ring.
  assert (G : forall q c, 0 <= q <= 1.001 -> Rabs c <= 1.01 -> Rabs (q * c) <= 1.01 * 1.01). { intros q c Hq Hc. rewrite Rabs_mult, (Rabs_pos_eq q) by lra. apply Rmult_le_compat; try apply Rabs_pos; lra. }
  pose proof (G (Q2R qr) (B2R r) ltac:(lra) Hr) as G1. pose proof (G (Q2R qg) (B2R g) ltac:(lra) Hg) as G2. pose proof (G (Q2R qb) (B2R b) ltac:(lra) Hb) as G3. apply Rabs_le_inv in G1, G2, G3. split; [apply Rabs_le; lra|].
  assert (S : u * (Q2R qr + / 100) + u * (Q2R qg + / 100) + u * (Q2R qb + / 100) <= u * 1.1). { rewrite <- !Rmult_plus_distr_l. apply Rmult_le_compat_l; lra. }
  apply Rabs_le_inv in E, B1, B2, B3. apply Rabs_le. lra.
Qed.
Lemma uplift_f (r g b : f64) : is_finite r = true -> is_finite g = true -> is_finite b = true -> Rabs (B2R r) <= 1.01 -> Rabs (B2R g) <= 1.01 -> Rabs (B2R b) <= 1.01 ->
  exists v w, @uplift_my _ ops (Rgb r g b) = Ret v /\ v_interval v = Uniform w /\ isZ 5 w /\ tabulated 8 1 (zup (B2R r) (B2R g) (B2R b)) 380 780 v.
Proof.
  intros Fr Fg Fb Hr Hg Hb. destruct from_values_f as (nms & LN & NK & FV). destruct len_basis as (L1 & L2 & L3).
  destruct (FV (map (@rlitd _ ops) data_basis_red) ltac:(rewrite map_length; exact L1)) as (vr & E1 & W1 & V1). destruct (FV (map (@rlitd _ ops) data_basis_green) ltac:(rewrite map_length; exact L2)) as (vg & E2 & W2 & V2). destruct (FV (map (@rlitd _ ops) data_basis_blue) ltac:(rewrite map_length; exact L3)) as (vb & E3 & W3 & V3).
  unfold uplift_my, my_basis. rewrite E1. cbn [obind]. rewrite E2. cbn [obind]. rewrite E3. cbn [obind]. rewrite W1, V1, V2, V3. clear E1 E2 E3 W1 W2 W3 V1 V2 V3 FV vr vg vb. cbn [rgb_r rgb_g rgb_b].
  assert (SS : combine (combine nms (map (@rlitd _ ops) data_basis_red)) (combine (map (@rlitd _ ops) data_basis_green) (map (@rlitd _ ops) data_basis_blue)) = map (fun k => ((nth k nms z0, b_of_Q 53 1024 (nth k data_basis_red 0%Q)), (b_of_Q 53 1024 (nth k data_basis_green 0%Q), b_of_Q 53 1024 (nth k data_basis_blue 0%Q)))) (seq 0 81)).
  { rewrite (as_seq nms z0), LN, (as_seq data_basis_red 0%Q), (as_seq data_basis_green 0%Q), (as_seq data_basis_blue 0%Q), L1, L2, L3. rewrite !map_map, !combine_maps. reflexivity. }
  rewrite SS, map_map. clear SS. set (ss := map _ (seq 0 81)). assert (LS : length ss = 81%nat) by (unfold ss; rewrite map_length; apply seq_length). set (dd := Sample z0 z0).
  assert (NS : forall k, (k < 81)%nat -> s_nm (nth k ss dd) = nth k nms z0) by (intros k Hk; unfold ss; rewrite nth_seq_map by exact Hk; reflexivity).
  destruct (new_uniform L AP ss dd 380 5) as (w & Hw & E); try lia; [intros k Hk; rewrite NS by lia; apply NK; lia|]. eexists _, w. split; [exact E|]. split; [reflexivity|]. split; [exact Hw|].
  destruct (zup_ok (B2R r) (B2R g) (B2R b)) as (Z1 & Z2 & Z3 & Z4 & Z5). unfold tabulated. cbn [v_samples v_start v_end v_shape sh_start sh_end]. rewrite Z2, Z4, Z5, LS. split.
  - unfold rel, zup, ss. apply f2_maps. intros k I. apply in_seq in I. split; [apply NK; lia|]. cbn [snd s_v]. apply sample_near; try assumption. lia.
  - split; [exact Z1|]. split; [lia|]. split; [exact Z3|]. split; [rewrite NS by lia; apply (NK 0%nat); lia|]. split; [rewrite NS by lia; apply (NK 80%nat); lia|]. lia.
Qed.
Lemma hundredth (p : f64) : is_finite p = true -> Rabs (B2R p) <= 199 -> let x := Bdiv mode_NE p (@rlit _ ops 100.0%Q) in is_finite x = true /\ Rabs (B2R x) <= 2 /\ Rabs (B2R x - B2R p / 100) <= / 10 ^ 15.
Proof.
  intros F H x. destruct (isZ_lit 100.0 100) as [F1 V1]; [clear; q2r; lra|lia|]. change (b_of_Q 53 1024 100.0) with (@rlit _ ops 100.0%Q) in F1, V1. change (IZR 100) with 100 in V1. apply Rabs_le_inv in H.
  pose proof (rnd_any 53 1024 (B2R p / 100)) as R1. assert (A : Rabs (B2R p / 100) <= 1.99) by (apply Rabs_le; lra). assert (EE : bpow radix2 (SpecFloat.emin 53 1024 - 1) <= / 10 ^ 17). { apply Rle_trans with (bpow radix2 (-60)); [apply bpow_le; vm_compute; discriminate|]. change (bpow radix2 (-60)) with (/ 1152921504606846976). lra. }
  assert (D : Rabs (round radix2 (SpecFloat.fexp 53 1024) ZnearestE (B2R p / 100) - B2R p / 100) <= / 10 ^ 15). { eapply Rle_trans; [exact R1|]. apply Rle_trans with (u * 1.99 + / 10 ^ 17); [apply Rplus_le_compat; [apply Rmult_le_compat_l; [apply bpow_ge_0|exact A]|exact EE]|]. change u with (/ 9007199254740992). lra. }
  assert (RB : Rabs (round radix2 (SpecFloat.fexp 53 1024) ZnearestE (B2R p / 100)) <= 2). { apply Rabs_le_inv in D, A. apply Rabs_le. lra. }
  destruct (fdiv 53 1024 p (@rlit _ ops 100.0%Q) F ltac:(rewrite V1; lra)) as [F2 E2]. { rewrite V1. eapply Rle_lt_trans; [exact RB|]. change 2 with (bpow radix2 1). apply bpow_lt. lia. }
  fold x in F2, E2. rewrite V1 in E2. rewrite E2. split; [exact F2|]. split; [exact RB|exact D].
Qed.
Lemma row2 (a b c x y z : f64) za zb zc n : entry_check a za n = true -> entry_check b zb n = true -> entry_check c zc n = true -> is_finite x = true -> is_finite y = true -> is_finite z = true -> Rabs (B2R x) <= 2 -> Rabs (B2R y) <= 2 -> Rabs (B2R z) <= 2 ->
  is_finite (fdot 53 1024 a b c x y z) = true /\ Rabs (B2R (fdot 53 1024 a b c x y z) - (Q2R (za # n) * B2R x + Q2R (zb # n) * B2R y + Q2R (zc # n) * B2R z)) <= 2 / 10 ^ 14.
Proof.
  intros A B C Fx Fy Fz HX HY HZ. destruct (entry_ok _ _ _ A) as (Fa & Da & Ba). destruct (entry_ok _ _ _ B) as (Fb & Db & Bb). destruct (entry_ok _ _ _ C) as (Fc & Dc & Bc).
  assert (T : forall m q t, Rabs t <= 2 -> Rabs (m - q) <= / 10 ^ 15 -> Rabs q <= 4 -> Rabs (m * t) <= 8.02 /\ Rabs (m * t - q * t) <= 2 / 10 ^ 15).
  { intros m q t Ht H1 H2. replace (m * t - q * t) with ((m - q) * t) by ring. rewrite !Rabs_mult. assert (M : Rabs m <= 4.01) by (apply Rabs_le_inv in H1, H2; apply Rabs_le; lra). split; [apply Rle_trans with (4.01 * 2)|apply Rle_trans with (/ 10 ^ 15 * 2)]; try lra; apply Rmult_le_compat; try apply Rabs_pos; lra. }
  destruct (T _ _ _ HX Da Ba) as [A1 A2]. destruct (T _ _ _ HY Db Bb) as [B1 B2]. destruct (T _ _ _ HZ Dc Bc) as [C1 C2]. destruct (fdot_near a b c x y z 24.1 Fa Fb Fc Fx Fy Fz ltac:(unfold adot; lra) ltac:(lra)) as [F E]. split; [exact F|].
  assert (U : u = / 9007199254740992) by reflexivity. rewrite U in E. unfold edot in E. apply Rabs_le_inv in E, A2, B2, C2. apply Rabs_le. lra.
Qed.
Local Existing Instance f64_const.
Theorem C105_float dbg fuel (r g b : f64) : (420 <= fuel)%nat -> is_finite r = true -> is_finite g = true -> is_finite b = true -> Rabs (B2R r) <= 1.01 -> Rabs (B2R g) <= 1.01 -> Rabs (B2R b) <= 1.01 ->
  exists v d65 cm c m r' g' b', @uplift_my _ ops (Rgb r g b) = Ret v /\ @spd_D65 _ ops = Ret d65 /\ @cie_1931_2_degree _ ops = Ret cm
  /\ @vspd_to_xyz _ ops dbg fuel v d65 cm = Ret c /\ @xyz_to_rgb_matrix _ ops (@cs_white _ (@SRGB _ ops)) (@SRGB _ ops) = Ret m /\ @xyz_to_rgb _ ops m c = Rgb r' g' b'
  /\ is_finite r' = true /\ is_finite g' = true /\ is_finite b' = true
  /\ Rabs (B2R r' - back_r (B2R r) (B2R g) (B2R b)) <= / 1000000 /\ Rabs (B2R g' - back_g (B2R r) (B2R g) (B2R b)) <= / 1000000 /\ Rabs (B2R b' - back_b (B2R r) (B2R g) (B2R b)) <= / 1000000.
Proof.
  intros FU Fr Fg Fb Hr Hg Hb. destruct (uplift_f r g b Fr Fg Fb Hr Hg Hb) as (v & w & E1 & I1 & I2 & T).
  destruct (C99_builtin L PI dbg fuel (@spd_D65 _ ops) spd_D65 f64_const_ok FU ltac:(cbn [In]; tauto)) as (d65 & cm & d65' & cm' & E2 & E3 & X2 & X3 & H).
  assert (M8 : mid 8). { split; change 8 with (bpow radix2 3); apply bpow_le; lia. }
  destruct (H 8 v _ 380%Z 780%Z 5%Z w M8 T ltac:(unfold overlaps; lia) I1 I2 ltac:(lia) ltac:(lia)) as (p & q & E4 & X4 & CL). rewrite zup_xspd in X4. clear H T.
  destruct (C105_linear dbg fuel (B2R r) (B2R g) (B2R b) f64_const_ok FU) as (v' & d & c' & x & y & z & m' & rx & gx & bx & Y1 & Y2 & Y3 & Y4 & Y5 & Y6 & Z1 & Z2 & Z3 & Z4 & Z5 & Z6).
  rewrite (uplift_is _ _ _ f64_const_ok) in Y1. apply ret_inj in Y1. subst v'. rewrite X2 in Y2. injection Y2 as <-. rewrite X3 in Y3. injection Y3 as <-. pose proof (eq_trans (eq_sym X4) Y4) as Y7. injection Y7 as ->. clear Y4.
  rewrite (srgb_matrix f64_const_ok) in Y5. apply ret_inj in Y5. subst m'. change (Xyz (Fin x) (Fin y) (Fin z)) with (FinXyz (x, y, z)) in Y6. rewrite xyz_to_rgb_fin in Y6. clear X2 X3 X4.
  pose proof srgb_fit as SF. specialize (SF L). destruct (xyz_to_rgb_matrix _ _) as [m| |] eqn:EM in SF; try discriminate SF.
  destruct p as [px py pz]. destruct CL as ((ex & [= <-] & F1 & C1) & (ey & [= <-] & F2 & C2) & (ez & [= <-] & F3 & C3)). cbn [xyz_x xyz_y xyz_z] in F1, F2, F3, C1, C2, C3.
  unfold size in *. pose proof (Rabs_le_inv _ _ Hr) as Hr'. pose proof (Rabs_le_inv _ _ Hg) as Hg'. pose proof (Rabs_le_inv _ _ Hb) as Hb'. apply Rabs_le_inv in Z1, Z2, Z3.
  assert (P1 : Rabs (B2R px) <= 199) by (apply Rabs_le_inv in C1; apply Rabs_le; lra). assert (P2 : Rabs (B2R py) <= 199) by (apply Rabs_le_inv in C2; apply Rabs_le; lra). assert (P3 : Rabs (B2R pz) <= 199) by (apply Rabs_le_inv in C3; apply Rabs_le; lra).
  destruct (hundredth px F1 P1) as (G1 & R1 & D1). destruct (hundredth py F2 P2) as (G2 & R2 & D2). destruct (hundredth pz F3 P3) as (G3 & R3 & D3).
  exists v, d65, cm, (Xyz px py pz), m. unfold xyz_to_rgb, xyz_div, xyz_from_scalar. cbn [xyz_x xyz_y xyz_z]. change (@rdiv _ ops) with (@Bdiv 53 1024 _ _ mode_NE). set (fx := Bdiv mode_NE px _) in *. set (fy := Bdiv mode_NE py _) in *. set (fz := Bdiv mode_NE pz _) in *.
  assert (V : vnear (9 / 10 ^ 8) (B2R fx, B2R fy, B2R fz) (vscale (/ 100) (x, y, z))). { clear - C1 C2 C3 D1 D2 D3. unfold vnear, vscale, v0, v1, v2. cbn [fst snd]. apply Rabs_le_inv in C1, C2, C3, D1, D2, D3. split; [|split]; apply Rabs_le; lra. }
  apply srgb_lip in V. destruct (mapp (toR (toQ srgb_i)) (vscale (/ 100) (x, y, z))) as [[rx' gx'] bx']. unfold FinRgb in Y6. injection Y6 as -> -> ->. clearbody fx fy fz. destruct m as [m00 m01 m02 m10 m11 m12 m20 m21 m22]. unfold entries_check, srgb_i in SF. rewrite !andb_true_iff in SF. destruct SF as [[[[[[[[S1 S2] S3] S4] S5] S6] S7] S8] S9].
  destruct (row2 _ _ _ _ _ _ _ _ _ _ S1 S2 S3 G1 G2 G3 R1 R2 R3) as (T1 & T2). destruct (row2 _ _ _ _ _ _ _ _ _ _ S4 S5 S6 G1 G2 G3 R1 R2 R3) as (T3 & T4). destruct (row2 _ _ _ _ _ _ _ _ _ _ S7 S8 S9 G1 G2 G3 R1 R2 R3) as (T5 & T6).
  unfold vnear, srgb_i, toQ, toR, mapp, v0, v1, v2 in V. cbn [fst snd] in V. destruct V as (V1 & V2 & V3). unfold mat_mul_xyz. cbn [xyz_x xyz_y xyz_z].
  eexists _, _, _. split; [exact E1|]. split; [exact E2|]. split; [exact E3|]. split; [exact E4|]. split; [exact EM|]. split; [reflexivity|]. split; [exact T1|]. split; [exact T3|]. split; [exact T5|].
  assert (W : forall s t a k e, Rabs (s - t) <= 2 / 10 ^ 14 -> Rabs (t - a) <= 6 * (9 / 10 ^ 8) -> Rabs (a - k) <= / 10 ^ 8 * (Rabs (B2R r) + Rabs (B2R g) + Rabs (B2R b)) -> e = / 1000000 -> Rabs (s - k) <= e). { clear - Hr Hg Hb. intros s t a k e A1 A2 A3 ->. apply Rabs_le_inv in A1, A2, A3. apply Rabs_le. lra. }
  split; [exact (W _ _ _ _ _ T2 V1 Z4 eq_refl)|]. split; [exact (W _ _ _ _ _ T4 V2 Z5 eq_refl)|exact (W _ _ _ _ _ T6 V3 Z6 eq_refl)].
Qed.
Lemma keep_code_f c (v : f64) e w : (0 <= c <= 255)%Z -> is_finite v = true -> Rabs (B2R v - dec (IZR c / 255)) <= e -> e <= 0.001 -> 255 * (13 * e + 4e-8) < / 2 + IZR w -> (Z.abs (@quantize _ ops 255 (@enc_srgb_t _ ops v) - c) <= w)%Z.
Proof.
  intros C F H E B. pose proof (dec_01 _ (code_of_unit c C)) as D0. destruct (srgb_exact 53 1024 ltac:(lia) ltac:(lia) L _ (litd_ok 53 1024 ltac:(lia) ltac:(lia)) PW PV) as [_ NE]. destruct (NE v (dec (IZR c / 255)) e F ltac:(apply Rabs_le; lra) E H) as [G D].
  rewrite enc_dec in D. assert (U : u = / 9007199254740992) by reflexivity. rewrite U in D. pose proof (fquant 53 1024 ltac:(lia) L (b_of_Q 53 1024) 255 _ ltac:(lia) G) as Q. rewrite U in Q. change (IZR 255) with 255 in Q. pose proof (code_of_unit c C) as CU. pose proof (Rabs_pos (B2R v - dec (IZR c / 255))) as EP.
  assert (N : Rabs (clampR (B2R (@enc_srgb_t _ ops v)) - clampR (IZR c / 255)) <= 13 * e + 3e-8 + 33 * / 9007199254740992).
  { destruct D as [D|[[D1 D2]|[D1 D2]]]; [apply clampR_near; exact D|rewrite !clampR_low by assumption; rewrite Rminus_eq_0, Rabs_R0; lra|rewrite !clampR_high by assumption; rewrite Rminus_eq_0, Rabs_R0; lra]. }
  rewrite (clampR_mid (IZR c / 255)) in N by exact CU. apply int_gap. apply Rabs_le_inv in N, Q. apply Rabs_def1; lra.
Qed.
Lemma decode_f c : (0 <= c <= 255)%Z -> let x := @dec_srgb_t _ ops (@dequantize _ ops 255 c) in is_finite x = true /\ Rabs (B2R x - dec (IZR c / 255)) <= 32 * u.
Proof.
  intro C. destruct (fdeq 53 1024 ltac:(lia) L (b_of_Q 53 1024) 255 c ltac:(lia) C) as (F & B & Q & E). assert (U : u = / 9007199254740992) by reflexivity.
  pose proof (clear_ok 40449936 1000000000 255 c ltac:(vm_compute; reflexivity) ltac:(lia) ltac:(lia) ltac:(vm_compute; tauto)) as A.
  destruct (srgb_exact 53 1024 ltac:(lia) ltac:(lia) L _ (litd_ok 53 1024 ltac:(lia) ltac:(lia)) PW PV) as [NE _]. destruct (NE _ _ F B Q E ltac:(rewrite U; replace (0.0031308 * 12.92) with (40449936 / 1000000000) by lra; lra)) as (F1 & E1 & B1). split; assumption.
Qed.
Lemma decode_is p : @cs_decode _ (@SRGB _ ops) (@rgb_of_u8 _ ops p) = Rgb (@dec_srgb_t _ ops (@dequantize _ ops 255 (rgb_r p))) (@dec_srgb_t _ ops (@dequantize _ ops 255 (rgb_g p))) (@dec_srgb_t _ ops (@dequantize _ ops 255 (rgb_b p))).
Proof. unfold cs_decode, SRGB, cs_new_with_specified_matrices. cbn [cs_eotf]. unfold dec_srgb, per_channel, rgb_of_u8, rgb_of_uint. cbn [rgb_r rgb_g rgb_b]. reflexivity. Qed.
Lemma encode_is r g b : @cs_encode _ (@SRGB _ ops) (Rgb r g b) = Rgb (@enc_srgb_t _ ops r) (@enc_srgb_t _ ops g) (@enc_srgb_t _ ops b).
Proof. unfold cs_encode, SRGB, cs_new_with_specified_matrices. cbn [cs_oetf]. unfold enc_srgb, per_channel. cbn [rgb_r rgb_g rgb_b]. reflexivity. Qed.
Theorem C105_pixels_float dbg fuel p : (420 <= fuel)%nat -> pixel p -> exists q, @respectral _ ops dbg fuel p = Ret q /\ survives p q.
Proof.
  intros FU (P1 & P2 & P3). assert (U : u = / 9007199254740992) by reflexivity.
  pose proof (decode_f _ P1) as (F1 & D1). pose proof (decode_f _ P2) as (F2 & D2). pose proof (decode_f _ P3) as (F3 & D3). rewrite U in D1, D2, D3.
  pose proof (dec_01 _ (code_of_unit _ P1)) as R1. pose proof (dec_01 _ (code_of_unit _ P2)) as R2. pose proof (dec_01 _ (code_of_unit _ P3)) as R3.
  unfold respectral. rewrite decode_is.
  set (r := @dec_srgb_t _ ops (@dequantize _ ops 255 (rgb_r p))) in *. set (g := @dec_srgb_t _ ops (@dequantize _ ops 255 (rgb_g p))) in *. set (b := @dec_srgb_t _ ops (@dequantize _ ops 255 (rgb_b p))) in *. clearbody r g b.
  set (x := dec (IZR (rgb_r p) / 255)) in *. set (y := dec (IZR (rgb_g p) / 255)) in *. set (z := dec (IZR (rgb_b p) / 255)) in *.
  apply Rabs_le_inv in D1, D2, D3.
  destruct (C105_float dbg fuel r g b FU F1 F2 F3 ltac:(apply Rabs_le; lra) ltac:(apply Rabs_le; lra) ltac:(apply Rabs_le; lra)) as (v & d65 & cm & c & m & r' & g' & b' & E1 & E2 & E3 & E4 & E5 & E6 & G1 & G2 & G3 & A & B & C).
  rewrite E1. cbn [obind]. rewrite E2. cbn [obind]. rewrite E3. cbn [obind]. rewrite E4. cbn [obind]. rewrite E5. cbn [obind]. rewrite E6. clear E1 E2 E3 E4 E5 E6. rewrite encode_is. eexists. split; [reflexivity|].
  unfold back_r, back_g, back_b in A, B, C. apply Rabs_le_inv in A, B, C.
  assert (A' : Rabs (B2R r' - x) <= 0.000102) by (apply Rabs_le; lra). assert (B' : Rabs (B2R g' - y) <= 0.000102) by (apply Rabs_le; lra). assert (C' : Rabs (B2R b' - z) <= 0.000177) by (apply Rabs_le; lra). clear A B C.
  unfold survives, rgb_to_u8, rgb_to_uint. cbn [rgb_r rgb_g rgb_b].
  pose proof (keep_code_f _ _ _ 0 P1 G1 A' ltac:(lra) ltac:(lra)). pose proof (keep_code_f _ _ _ 0 P2 G2 B' ltac:(lra) ltac:(lra)). pose proof (keep_code_f _ _ _ 1 P3 G3 C' ltac:(lra) ltac:(lra)). lia.
Qed.
(* orange: red and green of 255 165 40 return as they were *)
Example C105_orange_example dbg : exists b, @respectral _ ops dbg 420 (Rgb 255 165 40)%Z = Ret (Rgb 255 165 b)%Z /\ (39 <= b <= 41)%Z.
Proof.
  destruct (C105_pixels_float dbg 420 (Rgb 255 165 40)%Z ltac:(lia) ltac:(unfold pixel; cbn [rgb_r rgb_g rgb_b]; lia)) as ([r g b] & E & S1 & S2 & S3). cbn [rgb_r rgb_g rgb_b] in S1, S2, S3. subst r g. exists b. split; [exact E|lia].
Qed.
End F.
