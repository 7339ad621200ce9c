(* C129: order in floating point: brighter spectra and colours, AVX loop, scalar loop and linear conversion *)
From Coq Require Import Reals ZArith QArith Qreals Lra Lia Bool List.
From Flocq Require Import Core BinarySingleNaN.
From Verif Require Import Outcome RealOps MathModel ColorModel SpdModel SpaceModel IllumModel TransformModel XReal FloatInst FloatProofs DataSpd PropFast PropPixel PropDaylight PropTrip PropOdd.
Import ListNotations.
Open Scope R_scope.

(* x <= y in the sense of the comparison of floats, unless one of them is NaN *)
Definition below {prec emax} (x y : binary_float prec emax) : Prop := is_nan x = true \/ is_nan y = true \/ Bleb x y = true.

Section Up.
Context (prec emax : Z) {Hp : Prec_gt_0 prec} {He : Prec_lt_emax prec emax}.
Notation fl := (binary_float prec emax).
Notation fexp := (SpecFloat.fexp prec emax).
Notation rnd := (round radix2 fexp ZnearestE).

Definition le (x y : fl) : Prop := x = B754_infinity true \/ y = B754_infinity false \/ (is_finite x = true /\ is_finite y = true /\ B2R x <= B2R y).
Definition up (x y : fl) : Prop := x = B754_nan \/ y = B754_nan \/ le x y.
Lemma up_below x y : up x y -> below x y.
Proof.
  intros [->|[->|[->|[->|(F & G & H)]]]]; [left; reflexivity|right; left; reflexivity|..]; unfold below.
  - destruct y as [b|b| |b m e B]; try (right; right; reflexivity); [right; right; destruct b; reflexivity|right; left; reflexivity].
  - destruct x as [b|b| |b m e B]; try (right; right; reflexivity); [right; right; destruct b; reflexivity|left; reflexivity].
  - right; right. rewrite Bleb_correct by assumption. apply Rle_bool_true. exact H.
Qed.
Lemma leb_le (x y : fl) : is_finite x = true -> is_finite y = true -> Bleb x y = true -> B2R x <= B2R y.
Proof. intros F G H. rewrite Bleb_correct in H by assumption. destruct (Rle_bool_spec (B2R x) (B2R y)) as [E|E]; [exact E|discriminate H]. Qed.

(* the outcome of one rounded operation with value v: signs of overflows follow the value *)
Definition rounds (v : R) (z : fl) : Prop := (Rabs (rnd v) < bpow radix2 emax /\ is_finite z = true /\ B2R z = rnd v) \/ (bpow radix2 emax <= rnd v /\ z = B754_infinity false) \/ (rnd v <= - bpow radix2 emax /\ z = B754_infinity true).
Lemma rounds_le v w z z' : v <= w -> rounds v z -> rounds w z' -> le z z'.
Proof.
  intros H A B. assert (M : rnd v <= rnd w) by (apply round_le; [exact (fexp_correct prec emax Hp)|apply valid_rnd_N|exact H]). pose proof (bpow_gt_0 radix2 emax) as P.
  destruct A as [(A1 & A2 & A3)|[(A1 & A2)|(A1 & A2)]]; destruct B as [(B1 & B2 & B3)|[(B1 & B2)|(B1 & B2)]]; subst; try (left; reflexivity); try (right; left; reflexivity); try (apply Rabs_lt_inv in A1); try (apply Rabs_lt_inv in B1); try (exfalso; lra).
  right; right. rewrite A3, B3. repeat split; assumption.
Qed.
Lemma rounds_over v (z : fl) s : bpow radix2 emax <= Rabs (rnd v) -> B2SF z = binary_overflow prec emax mode_NE s -> (s = true -> v <= 0) -> (s = false -> 0 <= v) -> rounds v z.
Proof.
  intros B E N P. apply over_inf in E. subst z. destruct s; [right; right|right; left]; (split; [|reflexivity]).
  - assert (rnd v <= 0). { rewrite <- (round_0 radix2 fexp ZnearestE). apply round_le; [exact (fexp_correct prec emax Hp)|apply valid_rnd_N|apply N; reflexivity]. } rewrite Rabs_left1 in B by assumption. lra.
  - assert (0 <= rnd v). { rewrite <- (round_0 radix2 fexp ZnearestE). apply round_le; [exact (fexp_correct prec emax Hp)|apply valid_rnd_N|apply P; reflexivity]. } rewrite Rabs_pos_eq in B by assumption. exact B.
Qed.
Lemma sign_xor (x y : fl) : is_finite x = true -> is_finite y = true -> (xorb (Bsign x) (Bsign y) = true -> B2R x * B2R y <= 0) /\ (xorb (Bsign x) (Bsign y) = false -> 0 <= B2R x * B2R y).
Proof. intros F G. pose proof (sign_le prec emax x F) as A. pose proof (sign_le prec emax y G) as B. destruct (Bsign x), (Bsign y); split; intro E; try discriminate E; nra. Qed.
Lemma mul_rounds (x y : fl) : is_finite x = true -> is_finite y = true -> rounds (B2R x * B2R y) (Bmult mode_NE x y).
Proof.
  intros F G. pose proof (Bmult_correct prec emax _ _ mode_NE x y) as C. cbn [round_mode] in C. rewrite F, G in C. destruct (Rlt_bool_spec (Rabs (rnd (B2R x * B2R y))) (bpow radix2 emax)) as [B|B].
  - destruct C as (C1 & C2 & _). left. repeat split; assumption.
  - destruct (sign_xor x y F G) as (S1 & S2). apply (rounds_over _ _ _ B C); assumption.
Qed.
Lemma add_rounds (x y : fl) : is_finite x = true -> is_finite y = true -> rounds (B2R x + B2R y) (Bplus mode_NE x y).
Proof.
  intros F G. pose proof (Bplus_correct prec emax _ _ mode_NE x y F G) as C. cbn [round_mode] in C. destruct (Rlt_bool_spec (Rabs (rnd (B2R x + B2R y))) (bpow radix2 emax)) as [B|B].
  - destruct C as (C1 & C2 & _). left. repeat split; assumption.
  - destruct C as (C & S). pose proof (sign_le prec emax x F) as A1. pose proof (sign_le prec emax y G) as A2. rewrite <- S in A2. apply (rounds_over _ _ _ B C); intro E; rewrite E in A1, A2; lra.
Qed.
Definition pos (a : fl) : Prop := is_finite a = true /\ 0 <= B2R a.
Definition lef (x y : fl) : Prop := is_finite x = true /\ is_finite y = true /\ B2R x <= B2R y.
Lemma up_mul (a x y : fl) : pos a -> lef x y -> up (Bmult mode_NE a x) (Bmult mode_NE a y) /\ up (Bmult mode_NE x a) (Bmult mode_NE y a).
Proof.
  intros (F & P) (Fx & Fy & H). split; right; right; (eapply rounds_le; [|apply mul_rounds; assumption..]); [apply Rmult_le_compat_l|apply Rmult_le_compat_r]; assumption.
Qed.
(* a positive factor, infinite colours included *)
Lemma up_scale (a x y : fl) : is_finite a = true -> 0 < B2R a -> up x y -> up (Bmult mode_NE x a) (Bmult mode_NE y a).
Proof.
  intros F P [->|[->|[->|[->|(Fx & Fy & H)]]]].
  - left. destruct a; reflexivity.
  - right; left. destruct a; reflexivity.
  - right; right; left. destruct a as [b|b| |b m e B]; try discriminate F; [cbn [B2R] in P; lra|]. destruct b; [|reflexivity]. pose proof (sign_le prec emax (B754_finite true m e B) F) as S. cbn [Bsign] in S. lra.
  - right; right; right; left. destruct a as [b|b| |b m e B]; try discriminate F; [cbn [B2R] in P; lra|]. destruct b; [|reflexivity]. pose proof (sign_le prec emax (B754_finite true m e B) F) as S. cbn [Bsign] in S. lra.
  - apply (up_mul a x y); [split; [exact F|lra]|repeat split; assumption].
Qed.
Lemma up_add (x y x' y' : fl) : up x y -> up x' y' -> up (Bplus mode_NE x x') (Bplus mode_NE y y').
Proof.
  intros [->|[->|P]]; [left; reflexivity|right; left; reflexivity|]. intros [->|[->|P']]; [left; destruct x; reflexivity|right; left; destruct y; reflexivity|].
  destruct P as [->|[->|(F & G & H)]].
  - destruct x' as [b|b| |b m e B]; try (right; right; left; reflexivity); [destruct b; [right; right; left; reflexivity|left; reflexivity]|left; reflexivity].
  - destruct y' as [b|b| |b m e B]; try (right; right; right; left; reflexivity); [destruct b; [right; left; reflexivity|right; right; right; left; reflexivity]|right; left; reflexivity].
  - destruct P' as [->|[->|(F' & G' & H')]].
    + right; right; left. destruct x; try discriminate F; reflexivity.
    + right; right; right; left. destruct y; try discriminate G; reflexivity.
    + right; right. eapply rounds_le; [|apply add_rounds; assumption..]. lra.
Qed.

Context (L : libm fl) (lit : Q -> fl).
Notation O := (b_ops prec emax L lit).
Lemma up_row (a b c x y z x' y' z' : fl) : pos a -> pos b -> pos c -> lef x x' -> lef y y' -> lef z z' -> up (Bplus mode_NE (Bplus mode_NE (Bmult mode_NE a x) (Bmult mode_NE b y)) (Bmult mode_NE c z)) (Bplus mode_NE (Bplus mode_NE (Bmult mode_NE a x') (Bmult mode_NE b y')) (Bmult mode_NE c z')).
Proof. intros. repeat apply up_add; apply up_mul; assumption. Qed.

(* the lanes of the AVX loop *)
Notation upl := (Forall2 up).
Lemma f2_first {A B} (P : A -> B -> Prop) n a b : Forall2 P a b -> Forall2 P (firstn n a) (firstn n b).
Proof. intro H. revert n. induction H; intros [|n]; cbn [firstn]; constructor; [assumption|apply IHForall2]. Qed.
Lemma f2_skip {A B} (P : A -> B -> Prop) n a b : Forall2 P a b -> Forall2 P (skipn n a) (skipn n b).
Proof. intro H. revert n. induction H; intros [|n]; cbn [skipn]; try constructor; try assumption. apply IHForall2. Qed.
Lemma upl_mul (a b w : list fl) : Forall pos w -> Forall2 lef a b -> upl (@mm256_mul _ O a w) (@mm256_mul _ O b w).
Proof. intros W H. revert w W. induction H as [|x y a b P _ IH]; intros w W; [constructor|]. destruct W as [|u w U W]; cbn; constructor; [apply up_mul; assumption|apply IH, W]. Qed.
Lemma upl_add (a b c d : list fl) : upl a b -> upl c d -> upl (@mm256_add _ O a c) (@mm256_add _ O b d).
Proof. intro H. revert c d. induction H as [|x y a b P _ IH]; intros c d G; [constructor|]. destruct G as [|u v c d P' G]; cbn; constructor; [apply up_add; assumption|apply IH, G]. Qed.
Lemma upl_hadd (a b : list fl) : upl a b -> upl (@mm256_hadd _ O a a) (@mm256_hadd _ O b b).
Proof.
  intro H. do 8 (destruct H as [|? ? ? ? ? H]; [constructor|]). destruct H as [|? ? ? ? ? H]; [|constructor]. cbn. repeat (apply Forall2_cons; [apply up_add; assumption|]). apply Forall2_nil.
Qed.
Lemma upl_swap (a b : list fl) : upl a b -> upl (mm256_swap128 a) (mm256_swap128 b).
Proof. intro H. apply Forall2_app; [apply f2_skip, H|apply f2_first, H]. Qed.
Lemma pos_load (w : list fl) n : Forall pos w -> Forall pos (mm256_loadu w n).
Proof. rewrite !Forall_forall. intros H x I. apply H. unfold mm256_loadu in I. rewrite <- (firstn_skipn n w). apply in_or_app. right. rewrite <- (firstn_skipn 8 (skipn n w)). apply in_or_app. left. exact I. Qed.
Lemma up_avx (w v v' : list fl) : is_finite (b_of_Q prec emax 0.0) = true -> Forall pos w -> Forall2 lef v v' -> up (@avx_channel _ O w v) (@avx_channel _ O w v').
Proof.
  intros F W V. unfold avx_channel, hadd_avx. cbv zeta.
  match goal with |- up (nth 0 ?a _) (nth 0 ?b _) => assert (H : upl a b); [|destruct H; [right; right; right; right; split; [exact F|split; [exact F|apply Rle_refl]]|assumption]] end.
  apply upl_hadd, upl_hadd. assert (X : forall a b, upl a b -> upl (@mm256_add _ O a (mm256_swap128 a)) (@mm256_add _ O b (mm256_swap128 b))) by (intros a b H; apply upl_add; [exact H|apply upl_swap, H]). apply X.
  repeat apply upl_add; (apply upl_mul; [apply pos_load, W|apply f2_first, f2_skip, V]).
Qed.
End Up.

(* samples that are finite and in order *)
Definition dimmer (x y : f32) : Prop := is_finite x = true /\ is_finite y = true /\ Bleb x y = true.
Definition posb {p e} (a : binary_float p e) : bool := is_finite a && negb (Bsign a).
Lemma posb_pos p e (Hp : Prec_gt_0 p) (He : Prec_lt_emax p e) (a : binary_float p e) : posb a = true -> pos p e a.
Proof. unfold posb. intro H. apply andb_true_iff in H. destruct H as (F & S). split; [exact F|]. pose proof (sign_le p e a F) as G. destruct (Bsign a); [discriminate S|exact G]. Qed.

Theorem C129_avx (L : libm f32) (v w : list f32) : Forall2 dimmer v w -> below (xyz_x (fast_avx L v)) (xyz_x (fast_avx L w)) /\ below (xyz_y (fast_avx L v)) (xyz_y (fast_avx L w)).
Proof.
  intro H. assert (F : is_finite (b_of_Q 24 128 0.0) = true) by (vm_compute; reflexivity). set (lit := fun q => f64_to_f32 (b_of_Q 53 1024 q)).
  assert (V : Forall2 (lef 24 128) v w) by (induction H as [|x y v w (A & B & C) _ IH]; constructor; [repeat split; try assumption; apply leb_le; assumption|exact IH]).
  assert (PX : forallb posb (W32 data_W_X) = true) by (vm_compute; reflexivity). assert (PY : forallb posb (W32 data_W_Y) = true) by (vm_compute; reflexivity).
  assert (T : forall l : list f32, forallb posb l = true -> Forall (pos 24 128) l) by (intros l X; apply Forall_forall; intros a I; apply posb_pos; [reflexivity|reflexivity|apply (proj1 (forallb_forall _ _) X a I)]).
  split; apply up_below; [exact (up_avx 24 128 L lit (W32 data_W_X) v w F (T _ PX) V)|exact (up_avx 24 128 L lit (W32 data_W_Y) v w F (T _ PY) V)].
Qed.

(* the compensated loop does not keep the order: one sample raised by its last bit lowers X *)
Definition spiky (x : f32) : list f32 := let z n := b_of_Z 24 128 n in
  [z 0; x; z 0; z 0; z 0; z 14; z 32]%Z ++ repeat (z 0%Z) 25 ++ [@B754_finite 24 128 false 12582912 (-29) eq_refl; z 0%Z; z 0%Z; z 0%Z; z 224%Z; z 0%Z; z 0%Z; z 56%Z].
Theorem C129_scalar_refuted (L : libm f32) : exists v w, length v = 40%nat /\ Forall2 dimmer v w /\ Forall (fun x : f32 => Bleb (B754_zero false) x = true) v /\ is_finite (xyz_x (fast_scalar L v)) = true /\ Bltb (xyz_x (fast_scalar L w)) (xyz_x (fast_scalar L v)) = true.
Proof.
  exists (spiky (@B754_finite 24 128 false 8388608 (-13) eq_refl)), (spiky (@B754_finite 24 128 false 8388609 (-13) eq_refl)). split; [reflexivity|].
  split; [unfold spiky; cbn [app repeat]; repeat (apply Forall2_cons; [repeat split; vm_compute; reflexivity|]); apply Forall2_nil|]. split; [unfold spiky; cbn [app repeat]; repeat (apply Forall_cons; [vm_compute; reflexivity|]); apply Forall_nil|].
  split; vm_compute; reflexivity.
Qed.
(* nor does the AVX loop keep it in Z: W_Z has a negative weight at 660 nm *)
Theorem C129_z_refuted (L : libm f32) : exists v w, length v = 40%nat /\ Forall2 dimmer v w /\ is_finite (xyz_z (fast_avx L v)) = true /\ Bltb (xyz_z (fast_avx L w)) (xyz_z (fast_avx L v)) = true.
Proof.
  exists (repeat (b_of_Z 24 128 0%Z) 28 ++ [b_of_Z 24 128 5%Z] ++ repeat (b_of_Z 24 128 0%Z) 11), (repeat (b_of_Z 24 128 0%Z) 28 ++ [b_of_Z 24 128 6%Z] ++ repeat (b_of_Z 24 128 0%Z) 11). split; [reflexivity|].
  split; [cbn [app repeat]; repeat (apply Forall2_cons; [repeat split; vm_compute; reflexivity|]); apply Forall2_nil|]. split; vm_compute; reflexivity.
Qed.

(* linear colours *)
Section Linear.
Context {p e : Z} {O : RealOps (binary_float p e)}.
Definition dimmer_rgb (c d : rgbf (binary_float p e)) : Prop := (is_finite (rgb_r c) = true /\ is_finite (rgb_g c) = true /\ is_finite (rgb_b c) = true) /\ (is_finite (rgb_r d) = true /\ is_finite (rgb_g d) = true /\ is_finite (rgb_b d) = true)
  /\ Bleb (rgb_r c) (rgb_r d) = true /\ Bleb (rgb_g c) (rgb_g d) = true /\ Bleb (rgb_b c) (rgb_b d) = true.
Definition keeps_order_xy (w : xyy (binary_float p e)) (s : color_space (binary_float p e)) : Prop := exists A, rgb_to_xyz_matrix w s = Ret A /\ forall c d, dimmer_rgb c d -> below (xyz_x (rgb_to_xyz A c)) (xyz_x (rgb_to_xyz A d)) /\ below (xyz_y (rgb_to_xyz A c)) (xyz_y (rgb_to_xyz A d)).
Definition keeps_order_z (w : xyy (binary_float p e)) (s : color_space (binary_float p e)) : Prop := exists A, rgb_to_xyz_matrix w s = Ret A /\ forall c d, dimmer_rgb c d -> below (xyz_z (rgb_to_xyz A c)) (xyz_z (rgb_to_xyz A d)).
Definition all_but_two : list (outcome (color_space (binary_float p e))) := [Ret SRGB; SRGB_DRV; ITUR_BT709; ITUR_BT2020; DCI_P3; DCI_P3_D65; ACES_CG; Ret ADOBE_RGB_1998].
Definition four : list (outcome (color_space (binary_float p e))) := [Ret SRGB; SRGB_DRV; ITUR_BT709; Ret ADOBE_RGB_1998].
Definition rows_pos (pick : mat33 (binary_float p e) -> list (binary_float p e)) (l : list (outcome (color_space (binary_float p e)))) : bool :=
  forallb (fun o => match o with Ret s => forallb (fun w => match rgb_to_xyz_matrix w s with Ret A => forallb posb (pick A) | _ => false end) whites | _ => false end) l.
Lemma rows_ok pick l : rows_pos pick l = true -> forall o, In o l -> exists s, o = Ret s /\ forall w, In w whites -> exists A, rgb_to_xyz_matrix w s = Ret A /\ forallb posb (pick A) = true.
Proof.
  intros H o I. apply (proj1 (forallb_forall _ _) H) in I. destruct o as [s| |]; try discriminate I. exists s. split; [reflexivity|]. intros w J. apply (proj1 (forallb_forall _ _) I) in J. destruct (rgb_to_xyz_matrix w s) as [A| |]; try discriminate J. exists A. split; [reflexivity|exact J].
Qed.
End Linear.
Section Both.
Context (p e : Z) {Hp : Prec_gt_0 p} {He : Prec_lt_emax p e} (L : libm (binary_float p e)) (lit : Q -> binary_float p e) (F : is_finite (lit 100.0%Q) = true) (P : 0 < B2R (lit 100.0%Q)).
Notation O := (b_ops p e L lit).
Lemma three_pos (a b c : binary_float p e) (l : list (binary_float p e)) : forallb posb (a :: b :: c :: l) = true -> (pos p e a /\ pos p e b /\ pos p e c) /\ forallb posb l = true.
Proof. cbn [forallb]. rewrite !andb_true_iff. intros (A & B & C & D). repeat split; try exact D; apply posb_pos; assumption. Qed.
Lemma lefs c d : @dimmer_rgb p e c d -> lef p e (rgb_r c) (rgb_r d) /\ lef p e (rgb_g c) (rgb_g d) /\ lef p e (rgb_b c) (rgb_b d).
Proof. intros ((A1 & A2 & A3) & (B1 & B2 & B3) & C1 & C2 & C3). repeat split; try assumption; apply leb_le; assumption. Qed.
Lemma order_xy s w A : @rgb_to_xyz_matrix _ O w s = Ret A -> forallb posb [mx0 A; mx1 A; mx2 A; mx3 A; mx4 A; mx5 A] = true -> @keeps_order_xy p e O w s.
Proof.
  intros E C. exists A. split; [exact E|]. intros c d H. apply lefs in H. destruct H as (H1 & H2 & H3). apply three_pos in C. destruct C as ((X1 & X2 & X3) & C). apply three_pos in C. destruct C as ((Y1 & Y2 & Y3) & _).
  split; apply up_below; (apply up_scale; [exact F|exact P|apply up_row; assumption]).
Qed.
Lemma order_z s w A : @rgb_to_xyz_matrix _ O w s = Ret A -> forallb posb [mx6 A; mx7 A; mx8 A] = true -> @keeps_order_z p e O w s.
Proof.
  intros E C. exists A. split; [exact E|]. intros c d H. apply lefs in H. destruct H as (H1 & H2 & H3). apply three_pos in C. destruct C as ((X1 & X2 & X3) & _). apply up_below. apply up_scale; [exact F|exact P|apply up_row; assumption].
Qed.
Lemma order_all : @rows_pos p e O (fun A => [mx0 A; mx1 A; mx2 A; mx3 A; mx4 A; mx5 A]) (@all_but_two p e O) = true -> @rows_pos p e O (fun A => [mx6 A; mx7 A; mx8 A]) (@four p e O) = true ->
  (forall o, In o (@all_but_two p e O) -> exists s, o = Ret s /\ forall w, In w (@whites _ O) -> @keeps_order_xy p e O w s) /\ (forall o, In o (@four p e O) -> exists s, o = Ret s /\ forall w, In w (@whites _ O) -> @keeps_order_z p e O w s).
Proof.
  intros C D. split; intros o I.
  - destruct (rows_ok _ _ C o I) as (s & E & G). exists s. split; [exact E|]. intros w J. destruct (G w J) as (A & EA & X). apply (order_xy s w A EA X).
  - destruct (rows_ok _ _ D o I) as (s & E & G). exists s. split; [exact E|]. intros w J. destruct (G w J) as (A & EA & X). apply (order_z s w A EA X).
Qed.
End Both.
Theorem C129_linear_f32 (L : libm f32) : (forall o, In o (@all_but_two 24 128 (f32_ops L)) -> exists s, o = Ret s /\ forall w, In w (@whites _ (f32_ops L)) -> @keeps_order_xy 24 128 (f32_ops L) w s)
  /\ (forall o, In o (@four 24 128 (f32_ops L)) -> exists s, o = Ret s /\ forall w, In w (@whites _ (f32_ops L)) -> @keeps_order_z 24 128 (f32_ops L) w s).
Proof.
  destruct lit32_100 as (F & N). assert (P : 0 <= B2R (f64_to_f32 (b_of_Q 53 1024 100.0))) by (apply posb_pos; [reflexivity|reflexivity|vm_compute; reflexivity]).
  apply (order_all 24 128 L (fun q => f64_to_f32 (b_of_Q 53 1024 q)) F); [lra|vm_compute; reflexivity..].
Qed.
Theorem C129_linear_f64 (L : libm f64) : (forall o, In o (@all_but_two 53 1024 (f64_ops L)) -> exists s, o = Ret s /\ forall w, In w (@whites _ (f64_ops L)) -> @keeps_order_xy 53 1024 (f64_ops L) w s)
  /\ (forall o, In o (@four 53 1024 (f64_ops L)) -> exists s, o = Ret s /\ forall w, In w (@whites _ (f64_ops L)) -> @keeps_order_z 53 1024 (f64_ops L) w s).
Proof.
  destruct lit64_100 as (F & N). assert (P : 0 <= B2R (b_of_Q 53 1024 100.0)) by (apply posb_pos; [reflexivity|reflexivity|vm_compute; reflexivity]).
  apply (order_all 53 1024 L (b_of_Q 53 1024) F); [lra|vm_compute; reflexivity..].
Qed.
(* two equal-energy spectra, the second brighter at the long end *)
Example C129_example (L : libm f32) : let z n := b_of_Z 24 128 n in let v := repeat (z 1%Z) 40 in let w := repeat (z 1%Z) 39 ++ [z 2%Z] in below (xyz_x (fast_avx L v)) (xyz_x (fast_avx L w)) /\ Bltb (xyz_x (fast_avx L v)) (xyz_x (fast_avx L w)) = true.
Proof.
  cbv zeta. split; [|vm_compute; reflexivity]. refine (proj1 (C129_avx L _ _ _)). cbn [app repeat]. repeat (apply Forall2_cons; [repeat split; vm_compute; reflexivity|]). apply Forall2_nil.
Qed.
