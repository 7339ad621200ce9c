(* C25-C29: transform.rs *)
From Coq Require Import Reals ZArith QArith Qreals Lra Lia List Bool.
From Verif Require Import Outcome RealOps MathModel ColorModel AdaptModel SpaceModel TransformModel
  XReal SpecLin MatProofs AdaptProofs SpaceProofs PropSpace.
Import ListNotations.
Open Scope R_scope.

(* a white the CAT02 adaptation can start from: y and its cone responses are nonzero, Y = 1 *)
Definition usable_white (w : vec) : Prop :=
  v1 w <> 0 /\ v2 w = 1 /\ nonzero3 (mapp cat02_mat (white1 w)).

Section Whites.
Context {K : XConst} {KO : XConstOk K}.

Lemma nonzero3_scale k v : k <> 0 -> nonzero3 v -> nonzero3 (vscale k v).
Proof.
  intros Hk (A & B & C). destruct v as [[a b] c]. unfold nonzero3, v0, v1, v2 in *. cbn in *.
  repeat split; apply Rmult_integral_contrapositive_currified; assumption.
Qed.
Lemma white_xyz w : v1 w <> 0 ->
  xyz_from_chromaticity (FinXyy w) = FinXyz (vscale (100 * v2 w) (white1 w)).
Proof.
  destruct w as [[x y] l]. unfold white1, v0, v1, v2. cbn [fst snd]. intro H.
  rewrite xyz_from_chromaticity_fin by exact H. unfold FinXyz, vscale. f_equal; apply (f_equal Fin); field; exact H.
Qed.
Lemma white_cone w k : k <> 0 -> nonzero3 (mapp cat02_mat (white1 w)) ->
  nonzero3 (mapp cat02_mat (vscale k (white1 w))).
Proof. intros. rewrite mapp_scale. apply nonzero3_scale; assumption. Qed.

(* the adaptation between two whites, seen from the whites with Y = 1 *)
Definition cat (a b : vec) : RM := adapt cat02_mat (minv cat02_mat) (vscale (100 * v2 a) (white1 a)) (vscale (100 * v2 b) (white1 b)).
Definition usable' (w : vec) : Prop := v1 w <> 0 /\ v2 w <> 0 /\ nonzero3 (mapp cat02_mat (white1 w)).
Lemma usable_usable' w : usable_white w -> usable' w.
Proof. intros (A & B & C). repeat split; try apply C; try assumption. lra. Qed.

Lemma cat02_white a b : usable' a -> v1 b <> 0 ->
  cat02 (xyz_from_chromaticity (FinXyy a)) (xyz_from_chromaticity (FinXyy b)) = Ret (FinM (cat a b)).
Proof.
  intros (A & B & C) Hb. rewrite !white_xyz by assumption. apply cat02_fin.
  apply white_cone; [lra|assumption].
Qed.
Lemma cat_compose a b c : usable' a -> usable' b -> mmul (cat b c) (cat a b) = cat a c.
Proof.
  intros (A & B & C) (A' & B' & C'). apply adapt_compose; [apply minv_r, cat02_nz| |];
  apply white_cone; try assumption; lra.
Qed.
Lemma cat_self a : usable' a -> cat a a = mone.
Proof. intros (A & B & C). apply adapt_self; [apply minv_l, cat02_nz|]. apply white_cone; [lra|assumption]. Qed.
Lemma cat_maps a b : usable' a -> mapp (cat a b) (vscale (100 * v2 a) (white1 a)) = vscale (100 * v2 b) (white1 b).
Proof. intros (A & B & C). apply adapt_white; [apply minv_l, cat02_nz|]. apply white_cone; [lra|assumption]. Qed.

Lemma vscale_inj k u v : k <> 0 -> vscale k u = vscale k v -> u = v.
Proof.
  intros Hk E. destruct u as [[a b] c], v as [[a' b'] c']. cbn in E. injection E as E1 E2 E3.
  apply Rmult_eq_reg_l in E1, E2, E3; try assumption. congruence.
Qed.
End Whites.

(* ---- C25 ---- *)
(* For all spaces whose two matrices are mutual inverses and map their white to (1,1,1): by
   C23_new_partial, every non-degenerate result of ColorSpaceRGB::new outside the affine branch of
   the matrix inverse. *)
Theorem C25_groupoid_partial : forall (K : XConst) (KO : XConstOk K) (A B C : color_space xr) (a b c : vec),
  exact_space A a -> exact_space B b -> exact_space C c ->
  usable_white a -> usable_white b -> usable_white c ->
  rgb_to_rgb_matrix A A = Ret (FinM mone)
  /\ exists ab bc ac ba,
     rgb_to_rgb_matrix A B = Ret ab /\ rgb_to_rgb_matrix B C = Ret bc
     /\ rgb_to_rgb_matrix A C = Ret ac /\ rgb_to_rgb_matrix B A = Ret ba
     /\ mat_mul bc ab = ac /\ mat_mul ba ab = FinM mone
     /\ mat_mul_rgb ab (FinRgb (1, 1, 1)) = FinRgb (1, 1, 1).
Proof.
  intros K KO A B C a b c (ma & na & A1 & A2 & A3 & A4 & A5 & A6) (mb & nb & B1 & B2 & B3 & B4 & B5 & B6)
    (mc & nc & C1 & C2 & C3 & C4 & C5 & C6) Ua Ub Uc.
  pose proof (usable_usable' _ Ua) as Va. pose proof (usable_usable' _ Ub) as Vb. pose proof (usable_usable' _ Uc) as Vc.
  assert (G : forall X Y x y mx nx my ny, usable' x -> v1 y <> 0 -> xf_rgb_to_xyz X = FinM nx -> xf_xyz_to_rgb Y = FinM my ->
    cs_white X = FinXyy x -> cs_white Y = FinXyy y -> is_inverse nx mx -> is_inverse ny my ->
    rgb_to_rgb_matrix X Y = Ret (FinM (mmul (mmul my (cat x y)) nx))).
  { intros X Y x y mx nx my ny Vx Hy E1 E2 E3 E4 _ _. unfold rgb_to_rgb_matrix.
    rewrite E1, E2, E3, E4, (cat02_white _ _ Vx Hy). cbn [obind]. rewrite !mat_mul_fin. reflexivity. }
  assert (Comp : forall mx nx my cx cy, is_inverse nx mx ->
    mmul (mmul (mmul my cy) nx) (mmul (mmul mx cx) na) = mmul (mmul my (mmul cy cx)) na).
  { intros mx nx my cx cy [E _]. rewrite !mmul_assoc. do 2 f_equal.
    rewrite <- (mmul_assoc nx mx), E, mmul_1_l. reflexivity. }
  split.
  - rewrite (G A A a a ma na ma na); try assumption; try (apply Va).
    rewrite cat_self, mmul_1_r, (proj2 A3) by exact Va. reflexivity.
  - rewrite (G A B a b ma na mb nb), (G B C b c mb nb mc nc), (G A C a c ma na mc nc), (G B A b a mb nb ma na);
      try assumption; try apply Va; try apply Vb; try apply Vc.
    do 4 eexists. do 4 (split; [reflexivity|]). repeat apply conj.
    + rewrite mat_mul_fin, (Comp mb nb) by exact B3. rewrite cat_compose by assumption. reflexivity.
    + rewrite mat_mul_fin, (Comp mb nb) by exact B3. rewrite cat_compose by assumption.
      rewrite cat_self, mmul_1_r, (proj2 A3) by exact Va. reflexivity.
    + rewrite mat_mul_rgb_fin. do 2 f_equal.
      rewrite !mapp_mul, A5.
      assert (E : mapp (cat a b) (white1 a) = white1 b).
      { apply (vscale_inj 100); [lra|]. rewrite <- mapp_scale.
        pose proof (cat_maps a b Va) as M. destruct Ua as (_ & Ya & _), Ub as (_ & Yb & _).
        rewrite Ya, Yb in M. replace (100 * 1) with 100 in M by ring. exact M. }
      rewrite E. exact B4.
Qed.
Print Assumptions C25_groupoid_partial.

(* nonvacuous: converting between the built-in BT.709 and ACEScg spaces *)
Example C25_example (K : XConst) (KO : XConstOk K) : exists A B, ITUR_BT709 = Ret A /\ ACES_CG = Ret B
  /\ exact_space A D65 /\ exact_space B (0.32168, 0.33767, 1) /\ usable_white D65
  /\ usable_white (0.32168, 0.33767, 1).
Proof.
  destruct (C24_builtin_from_primaries K KO) as (_ & (A & HA & EA) & _ & _ & _ & (B & HB & EB)).
  exists A, B. repeat (split; [assumption|]).
  unfold usable_white, nonzero3, white1, D65, cat02_mat, v0, v1, v2. cbn [mapp fst snd].
  repeat split; lra.
Qed.

(* with the primaries of C23_new_refuted, converting a space to itself is not the identity *)
Theorem C25_groupoid_refuted : forall (K : XConst) (KO : XConstOk K) o e,
  exists (red green blue white : vec) (a b c : R) s m,
  white_is_mix red green blue white a b c
  /\ cs_new (FinXyy red) (FinXyy green) (FinXyy blue) (FinXyy white) o e = Ret s
  /\ rgb_to_rgb_matrix s s = Ret m /\ m <> FinM mone.
Proof.
  intros K KO o e.
  destruct (C23_new_refuted K KO o e) as (red & green & blue & white & a & b & c & m & n & H & E & _ & NI & _).
  exists red, green, blue, white, a, b, c. eexists. eexists. split; [exact H|]. split; [exact E|].
  unfold rgb_to_rgb_matrix. cbn [cs_white xf_xyz_to_rgb xf_rgb_to_xyz].
  rewrite white_xyz by apply H. unfold cat02.
  assert (Q : forall u, xyz_eqb (FinXyz u) (FinXyz u) = true) by (intro; apply xyz_eqb_fin; reflexivity).
  rewrite Q. cbn [obind]. rewrite mat_identity_fin, !mat_mul_fin, mmul_1_r.
  split; [reflexivity|]. intro F. apply NI. apply is_inverse_sym, left_is_inverse.
  destruct (mmul m n). cbn in F. unfold mone. congruence.
Qed.
Print Assumptions C25_groupoid_refuted.

(* ---- C26 ---- *)
Definition hundred (v : vec) : vec := vscale 100 v.
Lemma rgb_to_xyz_fin (K : XConst) m v : rgb_to_xyz (FinM m) (FinRgb v) = FinXyz (vscale 100 (mapp m v)).
Proof.
  unfold rgb_to_xyz. rewrite mat_mul_rgb_fin. destruct (mapp m v) as [[x y] z].
  unfold xyz_mul, xyz_from_scalar, FinRgb, FinXyz, vscale. cbn [rgb_r rgb_g rgb_b xyz_x xyz_y xyz_z]. xs.
  f_equal; apply (f_equal Fin); q2r; lra.
Qed.
Lemma xyz_to_rgb_fin (K : XConst) m v : xyz_to_rgb (FinM m) (FinXyz v) = FinRgb (mapp m (vscale (/ 100) v)).
Proof.
  unfold xyz_to_rgb, xyz_div, xyz_from_scalar. destruct v as [[x y] z]. unfold FinXyz.
  cbn [xyz_x xyz_y xyz_z]. xs. assert (E : Q2R 100.0 = 100) by (q2r; lra). rewrite E, !x_div by lra.
  change (Xyz (Fin (x / 100)) (Fin (y / 100)) (Fin (z / 100))) with (FinXyz (x / 100, y / 100, z / 100)).
  rewrite mat_mul_xyz_fin. replace (x / 100, y / 100, z / 100) with (vscale (/ 100) (x, y, z)).
  - destruct (mapp m _) as [[? ?] ?]. reflexivity.
  - cbn. vec_ring; field.
Qed.

Theorem C26_rgb_xyz_roundtrip_partial : forall (K : XConst) (KO : XConstOk K) (S : color_space xr) (sw w : vec),
  exact_space S sw -> usable_white sw ->
  v1 w <> 0 -> v2 w <> 0 -> nonzero3 (mapp cat02_mat (white1 w)) ->
  exists m n, rgb_to_xyz_matrix (FinXyy w) S = Ret m /\ xyz_to_rgb_matrix (FinXyy w) S = Ret n
    /\ (forall c : vec, xyz_to_rgb n (rgb_to_xyz m (FinRgb c)) = FinRgb c)
    /\ (forall v : vec, rgb_to_xyz m (xyz_to_rgb n (FinXyz v)) = FinXyz v)
    /\ rgb_to_xyz m (FinRgb (1, 1, 1)) = FinXyz (vscale (100 * v2 w) (white1 w)).
Proof.
  intros K KO S sw w (ms & ns & S1 & S2 & S3 & S4 & S5 & S6) Us Hy HY Hc.
  pose proof (usable_usable' _ Us) as Vs.
  assert (Vw : usable' w) by (split; [|split]; assumption).
  unfold rgb_to_xyz_matrix, xyz_to_rgb_matrix. rewrite S1, S2, S6.
  rewrite !cat02_white by (assumption || apply Vs). cbn [obind]. rewrite !mat_mul_fin.
  do 2 eexists. do 2 (split; [reflexivity|]).
  assert (Sc : forall k v, k <> 0 -> vscale (/ k) (vscale k v) = v).
  { intros k [[x y] z] Hk. cbn. vec_ring; field; exact Hk. }
  assert (Sc' : forall k v, k <> 0 -> vscale k (vscale (/ k) v) = v).
  { intros k [[x y] z] Hk. cbn. vec_ring; field; exact Hk. }
  assert (I1 : mmul (mmul ms (cat w sw)) (mmul (cat sw w) ns) = mone).
  { rewrite mmul_assoc, <- (mmul_assoc (cat w sw)), cat_compose, cat_self, mmul_1_l by assumption.
    apply S3. }
  assert (I2 : mmul (mmul (cat sw w) ns) (mmul ms (cat w sw)) = mone).
  { rewrite mmul_assoc, <- (mmul_assoc ns), (proj1 S3), mmul_1_l, cat_compose, cat_self by assumption.
    reflexivity. }
  repeat apply conj.
  - intro c. rewrite rgb_to_xyz_fin, xyz_to_rgb_fin, Sc, <- mapp_mul, I1, mapp_one by lra. reflexivity.
  - intro v. rewrite xyz_to_rgb_fin, rgb_to_xyz_fin, <- mapp_mul, I2, mapp_one, Sc' by lra. reflexivity.
  - rewrite rgb_to_xyz_fin, mapp_mul, S5, <- mapp_scale.
    pose proof (cat_maps sw w Vs) as M. destruct Us as (_ & Y1 & _). rewrite Y1 in M.
    replace (100 * 1) with 100 in M by ring. rewrite M. reflexivity.
Qed.
Print Assumptions C26_rgb_xyz_roundtrip_partial.

Theorem C26_rgb_xyz_roundtrip_refuted : forall (K : XConst) (KO : XConstOk K) o e,
  exists (red green blue white : vec) (a b c : R) s m n v,
  white_is_mix red green blue white a b c
  /\ cs_new (FinXyy red) (FinXyy green) (FinXyy blue) (FinXyy white) o e = Ret s
  /\ rgb_to_xyz_matrix (FinXyy white) s = Ret m /\ xyz_to_rgb_matrix (FinXyy white) s = Ret n
  /\ xyz_to_rgb n (rgb_to_xyz m (FinRgb v)) <> FinRgb v.
Proof.
  intros K KO o e.
  destruct (C23_new_refuted K KO o e) as (red & green & blue & white & a & b & c & m & n & H & E & W & _ & NW).
  exists red, green, blue, white, a, b, c. eexists. exists (FinM n), (FinM m), (1, 1, 1).
  split; [exact H|]. split; [exact E|].
  unfold rgb_to_xyz_matrix, xyz_to_rgb_matrix. cbn [cs_white xf_xyz_to_rgb xf_rgb_to_xyz].
  rewrite white_xyz by apply H. unfold cat02.
  assert (Q : forall u, xyz_eqb (FinXyz u) (FinXyz u) = true) by (intro; apply xyz_eqb_fin; reflexivity).
  rewrite Q. cbn [obind]. rewrite mat_identity_fin, !mat_mul_fin, mmul_1_r, mmul_1_l.
  repeat (split; [reflexivity|]).
  rewrite rgb_to_xyz_fin, xyz_to_rgb_fin. intro F.
  assert (F' : mapp m (mapp n (1, 1, 1)) = (1, 1, 1)).
  { replace (mapp n (1, 1, 1)) with (vscale (/ 100) (vscale 100 (mapp n (1, 1, 1)))).
    - destruct (mapp m (vscale _ _)) as [[? ?] ?]. cbn in F. injection F as -> -> ->. reflexivity.
    - destruct (mapp n _) as [[x y] z]. cbn. vec_ring; field. }
  (* m is injective, and sends the white to (1,1,1) too *)
  destruct (C23_xyz_to_rgb_from_primaries K _ _ _ _ _ _ _ H) as (m' & B' & _ & _ & _ & _ & D).
  assert (Em : m' = m).
  { unfold cs_new in E. rewrite B' in E. destruct (mat_inverse (FinM m')); cbn [unwrap obind] in E; [|discriminate].
    assert (E0 : FinM m' = FinM m) by congruence. clear - E0. destruct m', m. cbn in E0. congruence. }
  subst m'. assert (X : mapp n (1, 1, 1) = white1 white).
  { rewrite <- (mapp_one (mapp n (1, 1, 1))), <- (minv_l m D), mapp_mul, F', <- W, <- mapp_mul, (minv_l m D).
    apply mapp_one. }
  rewrite X in NW. replace (v0 (white1 white) - v0 (white1 white)) with 0 in NW by ring.
  rewrite Rabs_R0 in NW. lra.
Qed.
Print Assumptions C26_rgb_xyz_roundtrip_refuted.

(* ---- C27 ---- *)
Theorem C27_slice_is_pointwise : forall (T : Type) (OT : RealOps T) (m : mat33 T) (l : list (xyz T)),
  length (xyz_slice_to_rgb m l) = length l
  /\ forall i, nth_error (xyz_slice_to_rgb m l) i = option_map (xyz_to_rgb m) (nth_error l i).
Proof.
  intros T OT m l.
  assert (E : xyz_slice_to_rgb m l = map (xyz_to_rgb m) l).
  { unfold xyz_slice_to_rgb.
    assert (G : forall acc, fold_left (fun result c =>
        let x := mat_mul_xyz m (xyz_div c (xyz_from_scalar (rlit 100.0))) in
        result ++ [Rgb (xyz_x x) (xyz_y x) (xyz_z x)]) l acc = acc ++ map (xyz_to_rgb m) l).
    { induction l as [|c l IH]; intro acc; cbn [fold_left map]; [now rewrite app_nil_r|].
      rewrite IH, <- app_assoc. reflexivity. }
    apply G. }
  rewrite E, map_length. split; [reflexivity|]. intro i. apply nth_error_map.
Qed.
Print Assumptions C27_slice_is_pointwise.

(* ---- C28 ---- *)
Theorem C28_rgb_to_rgb_prefix : forall (T U : Type) (OT : RealOps T) (conv : rgbf T -> U)
  (A B : color_space T) (from : list (rgbf T)) (to : list U),
  match rgb_to_rgb_matrix A B with
  | Ret xf =>
      exists to', rgb_to_rgb conv A B from to = Ret (Nat.min (length from) (length to), to')
      /\ length to' = length to
      /\ (forall i c, nth_error from i = Some c -> (i < length to)%nat ->
          nth_error to' i = Some (conv (cs_oetf B (mat_mul_rgb xf (cs_eotf A c)))))
      /\ (forall i, (length from <= i)%nat -> nth_error to' i = nth_error to i)
  | Panic => rgb_to_rgb conv A B from to = Panic
  | OutOfFuel => False
  end.
Proof.
  intros T U OT conv A B from to. unfold rgb_to_rgb. destruct (rgb_to_rgb_matrix A B) as [xf| |] eqn:EM; cbn [obind]; [|reflexivity|].
  2: { unfold rgb_to_rgb_matrix, cat02 in EM. destruct (xyz_eqb _ _); [discriminate|].
       destruct (mat_inverse _); discriminate. }
  assert (G : forall to from, exists to', rgb_to_rgb_loop conv A B xf to from = (Nat.min (length from) (length to), to')
      /\ length to' = length to
      /\ (forall i c, nth_error from i = Some c -> (i < length to)%nat ->
          nth_error to' i = Some (conv (cs_oetf B (mat_mul_rgb xf (cs_eotf A c)))))
      /\ (forall i, (length from <= i)%nat -> nth_error to' i = nth_error to i)).
  { clear to from. induction to as [|u to IH]; intros [|f from]; cbn [rgb_to_rgb_loop length Nat.min].
    - exists []. repeat split; auto. intros i c H; destruct i; discriminate.
    - exists []. repeat split; auto. intros i c _ H; lia.
    - exists (u :: to). repeat split; auto. intros i c H; destruct i; discriminate.
    - destruct (IH from) as (to' & E & L & P & S). rewrite E.
      eexists. split; [reflexivity|]. split; [cbn; lia|]. split.
      + intros [|i] c H Hi; cbn in *; [injection H as <-; reflexivity|]. apply P; [exact H|lia].
      + intros [|i] Hi; cbn in *; [lia|]. apply S; lia. }
  destruct (G to from) as (to' & E & R). exists to'. rewrite E. split; [reflexivity|exact R].
Qed.
Print Assumptions C28_rgb_to_rgb_prefix.

(* ---- C29 ---- *)
Section Avx.
Context {T : Type} {OT : RealOps T}.

Lemma store_at_app {A : Type} (a b c vs : list A) : length b = length vs ->
  store_at (length a) vs (a ++ b ++ c) = a ++ vs ++ c.
Proof.
  intro H. unfold store_at. rewrite firstn_app, Nat.sub_diag, firstn_all. cbn [firstn]. rewrite app_nil_r.
  f_equal. f_equal. rewrite <- H, app_assoc, <- app_length.
  rewrite skipn_app, skipn_all, Nat.sub_diag. reflexivity.
Qed.
Lemma firstn_skipn_add {A : Type} (n k : nat) (l : list A) :
  firstn (n + k) l = firstn n l ++ firstn k (skipn n l).
Proof.
  revert l. induction n; intros [|x l]; cbn; try rewrite firstn_nil; try reflexivity. now rewrite IHn.
Qed.

Lemma avx_body (W : nat) (m : mat33 T) (cs : list (xyz T)) z k : (W * k <= length cs)%nat ->
  fold_left (fun result i =>
      store_at (i * W)%nat (map (avx_lane m) (firstn W (skipn (i * W)%nat cs))) result)
      (seq 0 k) (repeat z (length cs))
  = map (avx_lane m) (firstn (W * k) cs) ++ repeat z (length cs - W * k).
Proof.
  induction k as [|k IH]; intro H.
  - rewrite Nat.mul_0_r, Nat.sub_0_r. reflexivity.
  - rewrite seq_S, fold_left_app, IH by nia. cbn [fold_left plus].
    set (n := length cs) in *.
    replace (repeat z (n - W * k)) with (repeat z W ++ repeat z (n - W * S k))
      by (rewrite <- repeat_app; f_equal; nia).
    replace (k * W)%nat with (length (map (avx_lane m) (firstn (W * k) cs)))
      by (rewrite map_length, firstn_length; fold n; nia).
    rewrite store_at_app.
    + replace (length (map (avx_lane m) (firstn (W * k) cs))) with (W * k)%nat
        by (rewrite map_length, firstn_length; fold n; nia).
      rewrite app_assoc, <- map_app, <- firstn_skipn_add. do 3 f_equal. nia.
    + rewrite repeat_length, map_length, firstn_length, skipn_length.
      rewrite map_length, firstn_length. fold n. nia.
Qed.
End Avx.

(* For every number type, every plane length n and every SIMD width W >= 1: which of the three
   things ends up at each index. *)
Theorem C29_avx_planes_exact_coverage : forall (T : Type) (OT : RealOps T) (W : nat) (m : mat33 T) (cs : list (xyz T)),
  (0 < W)%nat ->
  let n := length cs in
  length (avx_planes W m cs) = n
  /\ forall i c, nth_error cs i = Some c ->
     nth_error (avx_planes W m cs) i =
       if (n - n / W <=? i)%nat then Some (avx_tail m c)
       else if (i <? W * (n / W))%nat then Some (avx_lane m c)
       else Some (Rgb (rlitd 0.0) (rlitd 0.0) (rlitd 0.0)).
Proof.
  intros T OT W m cs HW n. unfold avx_planes. fold n. set (k := (n / W)%nat).
  assert (Hk : (W * k <= n)%nat) by (apply Nat.mul_div_le; lia).
  assert (Hkn : (k <= n)%nat) by nia.
  unfold n. rewrite avx_body by exact Hk. fold n. set (z := Rgb _ _ _).
  set (body := _ ++ _).
  assert (Lb : length body = n).
  { unfold body. rewrite app_length, map_length, firstn_length, repeat_length. fold n. lia. }
  assert (E : store_at (n - k) (map (avx_tail m) (skipn (n - k) cs)) body
              = firstn (n - k) body ++ map (avx_tail m) (skipn (n - k) cs)).
  { unfold store_at. rewrite map_length, skipn_length. fold n.
    replace (n - k + (n - (n - k)))%nat with n by lia.
    replace (skipn n body) with (@nil (rgbf T)); [now rewrite app_nil_r|].
    symmetry. apply skipn_all2. lia. }
  rewrite E. split.
  - rewrite app_length, firstn_length, map_length, skipn_length. fold n. lia.
  - intros i c H. assert (Hi : (i < n)%nat) by (apply nth_error_Some; congruence).
    destruct (Nat.leb_spec (n - k) i) as [G|G].
    + rewrite nth_error_app2 by (rewrite firstn_length; lia). rewrite firstn_length, Lb.
      replace (Nat.min (n - k) n) with (n - k)%nat by lia.
      rewrite nth_error_map.
      replace (nth_error (skipn (n - k) cs) (i - (n - k))) with (nth_error cs i); [rewrite H; reflexivity|].
      rewrite <- (firstn_skipn (n - k) cs) at 1.
      rewrite nth_error_app2; rewrite firstn_length; fold n; [f_equal|]; lia.
    + rewrite nth_error_app1 by (rewrite firstn_length; lia).
      assert (F : forall (A : Type) (l : list A) a j, (j < a)%nat -> nth_error (firstn a l) j = nth_error l j).
      { intros A0 l a. revert l. induction a; intros l j Hj; [lia|]. destruct l; [destruct j; reflexivity|].
        destruct j; [reflexivity|]. cbn. apply IHa. lia. }
      rewrite F by exact G. unfold body.
      destruct (Nat.ltb_spec i (W * k)) as [J|J].
      * rewrite nth_error_app1 by (rewrite map_length, firstn_length; fold n; lia).
        rewrite nth_error_map, F by exact J. rewrite H. reflexivity.
      * rewrite nth_error_app2 by (rewrite map_length, firstn_length; fold n; lia).
        rewrite map_length, firstn_length. fold n.
        assert (Rp : forall a j, (j < a)%nat -> nth_error (repeat z a) j = Some z).
        { induction a; intros j Hj; [lia|]. destruct j; [reflexivity|]. cbn. apply IHa. lia. }
        apply Rp. lia.
Qed.
Print Assumptions C29_avx_planes_exact_coverage.

(* In exact arithmetic, both converted cases are the scalar conversion; so every pixel is right
   exactly when no index falls between the two ranges, or the scalar result there is black. *)
Lemma avx_lane_fin (K : XConst) m v : avx_lane (FinM m) (FinXyz v) = xyz_to_rgb (FinM m) (FinXyz v).
Proof.
  rewrite xyz_to_rgb_fin. destruct m as [a b c d e f g h i], v as [[x y] z]. unfold avx_lane, FinXyz, FinM, FinRgb.
  cbn [mx0 mx1 mx2 mx3 mx4 mx5 mx6 mx7 mx8 xyz_x xyz_y xyz_z vscale mapp]. xs.
  f_equal; apply (f_equal Fin); q2r; field.
Qed.
Lemma avx_tail_fin (K : XConst) m v : avx_tail (FinM m) (FinXyz v) = xyz_to_rgb (FinM m) (FinXyz v).
Proof.
  rewrite xyz_to_rgb_fin. destruct m as [a b c d e f g h i], v as [[x y] z].
  unfold avx_tail, mat_mul_xyz, FinXyz, FinM, FinRgb.
  cbn [mx0 mx1 mx2 mx3 mx4 mx5 mx6 mx7 mx8 xyz_x xyz_y xyz_z vscale mapp]. xs.
  f_equal; apply (f_equal Fin); q2r; field.
Qed.

Theorem C29_avx_planes_partial : forall (K : XConst) (W : nat) (m : RM) (vs : list vec) (i : nat) (v : vec),
  (0 < W)%nat -> nth_error vs i = Some v ->
  (i < W * (length vs / W))%nat \/ (length vs - length vs / W <= i)%nat ->
  nth_error (avx_planes W (FinM m) (map FinXyz vs)) i = Some (xyz_to_rgb (FinM m) (FinXyz v)).
Proof.
  intros K W m vs i v HW H D.
  destruct (C29_avx_planes_exact_coverage xr xr_ops W (FinM m) (map FinXyz vs) HW) as [_ G].
  rewrite (G i (FinXyz v)) by (rewrite nth_error_map, H; reflexivity).
  rewrite map_length, avx_lane_fin, avx_tail_fin.
  destruct (Nat.leb_spec (length vs - length vs / W) i); [reflexivity|].
  destruct (Nat.ltb_spec i (W * (length vs / W))); [reflexivity|lia].
Qed.
Print Assumptions C29_avx_planes_partial.

(* every image of n pixels is converted right exactly when the remainder is at most the quotient *)
Theorem C29_avx_planes_iff : forall (K : XConst) (W n : nat), (0 < W)%nat ->
  (n mod W <= n / W)%nat <->
  (forall (m : RM) (vs : list vec), length vs = n -> forall i v, nth_error vs i = Some v ->
   nth_error (avx_planes W (FinM m) (map FinXyz vs)) i = Some (xyz_to_rgb (FinM m) (FinXyz v))).
Proof.
  intros K W n HW. pose proof (Nat.div_mod n W ltac:(lia)) as E. split.
  - intros H m vs L i v Hi. assert (i < n)%nat by (rewrite <- L; apply nth_error_Some; congruence).
    apply C29_avx_planes_partial; try assumption. rewrite L. lia.
  - intro H. destruct (Nat.le_gt_cases (n mod W) (n / W)) as [G|G]; [exact G|exfalso].
    set (i := (W * (n / W))%nat) in *. assert (Hi : (i < n)%nat) by lia.
    assert (Rp : nth_error (repeat ((100, 100, 100) : vec) n) i = Some (100, 100, 100)).
    { clearbody i. clear - Hi. revert i Hi. induction n; intros i Hi; [lia|]. destruct i; [reflexivity|]. apply IHn. lia. }
    specialize (H mone (repeat (100, 100, 100) n) (repeat_length _ _) i _ Rp).
    destruct (C29_avx_planes_exact_coverage xr xr_ops W (FinM mone) (map FinXyz (repeat (100, 100, 100) n)) HW) as [_ C].
    rewrite (C i (FinXyz (100, 100, 100))) in H by (apply map_nth_error; exact Rp).
    rewrite map_length, repeat_length in H. fold i in H.
    destruct (Nat.leb_spec (n - n / W) i); [lia|]. destruct (Nat.ltb_spec i i); [lia|].
    rewrite xyz_to_rgb_fin, mapp_one in H. revert H. xs. unfold FinRgb, vscale. q2r. intro H.
    injection H as H _ _. lra.
Qed.
Print Assumptions C29_avx_planes_iff.

(* Seven pixels on 8-wide AVX2: the identity conversion of a white image comes out black. *)
Theorem C29_avx_planes_refuted : forall (K : XConst), exists (vs : list vec) (v : vec),
  nth_error vs 0 = Some v
  /\ nth_error (avx_planes 8 (FinM mone) (map FinXyz vs)) 0 = Some (FinRgb (0, 0, 0))
  /\ xyz_to_rgb (FinM mone) (FinXyz v) = FinRgb (1, 1, 1).
Proof.
  intro K. exists (repeat (100, 100, 100) 7), (100, 100, 100). split; [reflexivity|]. split.
  - destruct (C29_avx_planes_exact_coverage xr xr_ops 8 (FinM mone) (map FinXyz (repeat (100, 100, 100) 7)) ltac:(lia)) as [_ G].
    rewrite (G 0%nat (FinXyz (100, 100, 100))) by reflexivity.
    rewrite map_length, repeat_length. cbn [Nat.leb Nat.sub Nat.div Nat.divmod Nat.ltb Nat.mul Nat.add fst].
    xs. unfold FinRgb. apply f_equal. f_equal; apply (f_equal Fin); q2r; lra.
  - rewrite xyz_to_rgb_fin, mapp_one. unfold FinRgb, vscale. f_equal; apply (f_equal Fin); field.
Qed.
Print Assumptions C29_avx_planes_refuted.
