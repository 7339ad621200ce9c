(* C81: the wavelengths of hero wavelength sampling.  C82: equality of colours and is_zero *)
From Coq Require Import Reals ZArith QArith Qreals Lra Lia List Bool.
From Flocq Require Import Core BinarySingleNaN.
From Verif Require Import Outcome RealOps MathModel ColorModel UpliftModel XReal FloatInst FloatProofs ErrProofs PropShape.
Import ListNotations.
Open Scope R_scope.

(* ---- C81, exact arithmetic ---- *)
Section HeroExact.
Context {K : XConst}.
Lemma wrap_exact l : (if Fin l >=? Fin 780 then Fin l - Fin 420 else Fin l)%num = Fin (if Rle_dec 780 l then l - 420 else l).
Proof.
  rewrite x_le, x_sub. destruct (Rle_dec 780 l) as [H|H].
  - apply Rleb_true in H. rewrite H. reflexivity.
  - assert (E : Rleb 780 l = false) by (apply Rleb_false; lra). rewrite E. reflexivity.
Qed.
Lemma hero_fin x : hero_lambda (Fin x) =
  map (fun l => Fin (if Rle_dec 780 l then l - 420 else l)) [360 + x * 420; 360 + x * 420 + 105; 360 + x * 420 + 210; 360 + x * 420 + 315].
Proof.
  unfold hero_lambda. cbv zeta. rewrite !x_litd.
  replace (Q2R 780.0) with 780 by (q2r; lra). replace (Q2R 360.0) with 360 by (q2r; lra). replace (Q2R 4.0) with 4 by (q2r; lra).
  replace (Q2R 2.0) with 2 by (q2r; lra). replace (Q2R 3.0) with 3 by (q2r; lra).
  rewrite x_sub. replace (780 - 360) with 420 by lra. rewrite !x_mul, !x_div by lra. rewrite !x_add.
  replace (420 / 4) with 105 by lra. replace (2 * 420 / 4) with 210 by lra. replace (3 * 420 / 4) with 315 by lra.
  cbn [map]. rewrite !wrap_exact. reflexivity.
Qed.
End HeroExact.

(* four wavelengths of 360..780, a quarter of the range apart, one in each quarter *)
Theorem C81_hero_exact : forall (K : XConst) x, 0 <= x < 1 ->
  exists l0 l1 l2 l3, hero_lambda (Fin x) = [Fin l0; Fin l1; Fin l2; Fin l3]
    /\ l0 = 360 + 420 * x
    /\ (forall l, In l [l0; l1; l2; l3] -> 360 <= l < 780)
    /\ (l1 = l0 + 105 \/ l1 = l0 - 315) /\ (l2 = l0 + 210 \/ l2 = l0 - 210) /\ (l3 = l0 + 315 \/ l3 = l0 - 105)
    /\ (forall k, (k < 4)%nat -> exists l, In l [l0; l1; l2; l3] /\ 360 + 105 * INR k <= l < 360 + 105 * (INR k + 1)).
Proof.
  intros K x Hx. rewrite hero_fin. cbn [map]. do 4 eexists. split; [reflexivity|].
  destruct (Rle_dec 780 (360 + x * 420)); [lra|]. split; [lra|].
  set (d := x * 420) in *. assert (Hd : 0 <= d < 420) by (unfold d; lra). clearbody d.
  destruct (Rle_dec 780 (360 + d + 105)), (Rle_dec 780 (360 + d + 210)), (Rle_dec 780 (360 + d + 315)); try lra.
  all: split; [intros l [<-|[<-|[<-|[<-|[]]]]]; lra|]; split; [lra|]; split; [lra|]; split; [lra|].
  all: intros k Hk; assert (KE : (k = 0 \/ k = 1 \/ k = 2 \/ k = 3)%nat) by lia.
  all: destruct KE as [->|[->|[->| ->]]]; cbn [INR].
  all: first [ eexists; split; [left; reflexivity|lra] | eexists; split; [right; left; reflexivity|lra]
             | eexists; split; [right; right; left; reflexivity|lra] | eexists; split; [right; right; right; left; reflexivity|lra] ].
Qed.

(* ---- C81, binary64 ---- *)
Notation rnd64 := (round radix2 (SpecFloat.fexp 53 1024) ZnearestE).
Definition fval (x : f64) (r : R) : Prop := is_finite x = true /\ B2R x = r.
Definition fin_in (x : f64) (a b : Z) : Prop := is_finite x = true /\ IZR a <= B2R x <= IZR b.
Lemma rnd64_in x a b : (Z.abs a <= 2 ^ 53)%Z -> (Z.abs b <= 2 ^ 53)%Z -> IZR a <= x <= IZR b -> IZR a <= rnd64 x <= IZR b.
Proof.
  intros A B [H1 H2]. rewrite <- (rnd_int 53 1024 a A), <- (rnd_int 53 1024 b B). split; apply round_le; auto with typeclass_instances.
Qed.
Lemma small_lt x a b : (Z.abs a <= 2 ^ 53)%Z -> (Z.abs b <= 2 ^ 53)%Z -> IZR a <= x <= IZR b -> Rabs x < bpow radix2 1024.
Proof.
  intros A B [H1 H2]. apply Rle_lt_trans with (IZR (2 ^ 53)).
  - apply Rabs_le. assert (- 2 ^ 53 <= a)%Z by lia. assert (b <= 2 ^ 53)%Z by lia. apply IZR_le in H, H0. rewrite opp_IZR in H. lra.
  - change (IZR (2 ^ 53)) with (IZR (Zpower radix2 53)). rewrite IZR_Zpower by lia. apply bpow_lt. lia.
Qed.
Lemma plus_in x y a b c d : fin_in x a b -> fin_in y c d -> (Z.abs (a + c) <= 2 ^ 53)%Z -> (Z.abs (b + d) <= 2 ^ 53)%Z ->
  fin_in (Bplus mode_NE x y) (a + c) (b + d).
Proof.
  intros [Fx X] [Fy Y] A B. assert (H : IZR (a + c) <= rnd64 (B2R x + B2R y) <= IZR (b + d)) by (apply rnd64_in; try assumption; rewrite !plus_IZR; lra).
  assert (F : is_finite (Bplus mode_NE x y) = true) by (apply (plus_small 53 1024); try assumption; apply (small_lt _ _ _ A B H)).
  split; [exact F|]. destruct (plus_fin 53 1024 x y F) as (_ & _ & ->). exact H.
Qed.
Lemma minus_in x y a b c d : fin_in x a b -> fin_in y c d -> (Z.abs (a - d) <= 2 ^ 53)%Z -> (Z.abs (b - c) <= 2 ^ 53)%Z ->
  fin_in (Bminus mode_NE x y) (a - d) (b - c).
Proof.
  intros [Fx X] [Fy Y] A B. assert (H : IZR (a - d) <= rnd64 (B2R x - B2R y) <= IZR (b - c)) by (apply rnd64_in; try assumption; rewrite !minus_IZR; lra).
  pose proof (Bminus_correct 53 1024 _ _ mode_NE x y Fx Fy) as C. cbn [round_mode] in C. rewrite Rlt_bool_true in C by (apply (small_lt _ _ _ A B H)).
  destruct C as (C1 & C2 & _). split; [exact C2|]. rewrite C1. exact H.
Qed.
Lemma mult_in01 x y b : fin_in x 0 1 -> fval y (IZR b) -> (0 <= b <= 2 ^ 53)%Z -> fin_in (Bmult mode_NE x y) 0 b.
Proof.
  intros [Fx X] [Fy Y] B. assert (0 <= IZR b) by (apply IZR_le; lia).
  assert (H1 : 0 <= B2R x * B2R y) by (apply Rmult_le_pos; lra).
  assert (H2 : B2R x * B2R y <= IZR b) by (rewrite Y; rewrite <- (Rmult_1_l (IZR b)) at 2; apply Rmult_le_compat_r; lra).
  assert (R0 : IZR 0 <= rnd64 (B2R x * B2R y) <= IZR b) by (apply rnd64_in; try lia; split; assumption).
  assert (F : is_finite (Bmult mode_NE x y) = true) by (apply (mult_small 53 1024); try assumption; apply (small_lt _ 0 b); [lia|lia|exact R0]).
  split; [exact F|]. destruct (mult_fin 53 1024 x y F) as (_ & _ & ->). exact R0.
Qed.
(* a closed float with an integral value *)
Lemma fval_sf (x : f64) z : B2SF x = B2SF (b_of_Q 53 1024 (inject_Z z)) -> (0 < z <= 2 ^ 53)%Z -> fval x (IZR z).
Proof. intros E H. apply B2SF_inj in E. subst x. destruct (int_lit 53 1024 z H). split; assumption. Qed.
Lemma fval_in x z : fval x (IZR z) -> fin_in x z z.
Proof. intros [F E]. split; [exact F|]. rewrite E. lra. Qed.
Lemma fin_in_weak x a b a' b' : fin_in x a b -> (a' <= a)%Z -> (b <= b')%Z -> fin_in x a' b'.
Proof. intros [F H] A B. apply IZR_le in A, B. split; [exact F|]. lra. Qed.

Section HeroFloat.
Context (L : libm f64).
Local Instance O64 : RealOps f64 := f64_ops L.
Definition f780 : f64 := rlitd 780.0.
Definition f360 : f64 := rlitd 360.0.
Definition f420 : f64 := (f780 - f360)%num.
Lemma v780 : fval f780 780. Proof. apply fval_sf; [reflexivity|lia]. Qed.
Lemma v360 : fval f360 360. Proof. apply fval_sf; [reflexivity|lia]. Qed.
Lemma v420 : fval f420 420. Proof. apply fval_sf; [reflexivity|lia]. Qed.
Lemma v105 : fval (f420 / rlitd 4.0)%num 105. Proof. apply fval_sf; [reflexivity|lia]. Qed.
Lemma v210 : fval (rlitd 2.0 * f420 / rlitd 4.0)%num 210. Proof. apply fval_sf; [reflexivity|lia]. Qed.
Lemma v315 : fval (rlitd 3.0 * f420 / rlitd 4.0)%num 315. Proof. apply fval_sf; [reflexivity|lia]. Qed.
Lemma wrap_float l b : fin_in l 360 b -> (b < 1200)%Z -> let r := (if l >=? f780 then l - f420 else l)%num in
  is_finite r = true /\ 360 <= B2R r < 780.
Proof.
  intros [Fl Hl] Hb r. destruct v780 as [F7 V7]. assert (NN : forall y : f64, is_finite y = true -> is_nan y = false) by (intros []; auto).
  assert (E : rle f780 l = Rle_bool 780 (B2R l)).
  { change (rle f780 l) with (Bleb f780 l). rewrite (ev_leb 53 1024) by auto. rewrite !(ev_fin 53 1024), V7 by assumption. reflexivity. }
  subst r. rewrite E. destruct (Rle_bool_spec 780 (B2R l)) as [H|H].
  - assert (M : fin_in (l - f420)%num (780 - 420) (b - 420)).
    { apply (minus_in l f420); [split; [exact Fl|lra]|apply fval_in, v420|lia|].
      assert (360 <= b)%Z by (apply le_IZR; lra). lia. }
    change (780 - 420)%Z with 360%Z in M. destruct M as [F M]. split; [exact F|]. assert (b - 420 < 780)%Z by lia. apply IZR_lt in H0. lra.
  - split; [exact Fl|lra].
Qed.
End HeroFloat.

(* with rounding, and even for x = 1 (which the stratified pattern can produce), all four
   wavelengths are in range *)
Theorem C81_hero_f64 : forall (L : libm f64) (x : f64), is_finite x = true -> 0 <= B2R x <= 1 ->
  let ls := @hero_lambda _ (f64_ops L) x in
  length ls = 4%nat /\ Forall (fun l => is_finite l = true /\ 360 <= B2R l < 780) ls.
Proof.
  intros L x Fx Hx ls. split; [reflexivity|]. subst ls. unfold hero_lambda. cbv zeta. cbn [map].
  change (@rlitd _ (f64_ops L) 780.0) with (f780 L). change (@rlitd _ (f64_ops L) 360.0) with (f360 L).
  change (@rsub _ (f64_ops L) (f780 L) (f360 L)) with (f420 L).
  assert (H : fin_in (@radd _ (f64_ops L) (f360 L) (@rmul _ (f64_ops L) x (f420 L))) (360 + 0) (360 + 420)).
  { apply (plus_in (f360 L)); [apply fval_in, v360| |lia|lia]. apply (mult_in01 x (f420 L) 420); [split; assumption|apply v420|lia]. }
  change (360 + 0)%Z with 360%Z in H. change (360 + 420)%Z with 780%Z in H.
  repeat apply Forall_cons; [..|apply Forall_nil]; cbv beta.
  - exact (wrap_float L _ 780 H eq_refl).
  - refine (wrap_float L _ 885 (fin_in_weak _ _ _ _ _ (plus_in _ _ _ _ _ _ H (fval_in _ _ (v105 L)) _ _) _ _) eq_refl); lia.
  - refine (wrap_float L _ 990 (fin_in_weak _ _ _ _ _ (plus_in _ _ _ _ _ _ H (fval_in _ _ (v210 L)) _ _) _ _) eq_refl); lia.
  - refine (wrap_float L _ 1095 (fin_in_weak _ _ _ _ _ (plus_in _ _ _ _ _ _ H (fval_in _ _ (v315 L)) _ _) _ _) eq_refl); lia.
Qed.
(* x = 1/2: 570, 675, 360, 465 *)
Example C81_example (K : XConst) : hero_lambda (Fin (1 / 2)) = [Fin 570; Fin 675; Fin 360; Fin 465].
Proof.
  rewrite hero_fin. cbn [map]. repeat (destruct Rle_dec; try lra). repeat f_equal; lra.
Qed.
Print Assumptions C81_hero_exact.
Print Assumptions C81_hero_f64.

(* ---- C82 ---- *)
Section ColourEq.
Context (prec emax : Z) {Hp : Prec_gt_0 prec} {He : Prec_lt_emax prec emax} (L : libm (binary_float prec emax)) (lit : Q -> binary_float prec emax).
Notation fl := (binary_float prec emax).
Local Instance clops : RealOps fl := b_ops prec emax L lit.
(* IEEE equality: not NaN, and the same extended real number; +0 and -0 are equal *)
Definition same (x y : fl) : Prop := is_nan x = false /\ is_nan y = false /\ ev prec emax x = ev prec emax y.
Lemma beqb_same x y : Beqb x y = true <-> same x y.
Proof.
  unfold same. destruct (is_nan x) eqn:Nx; [rewrite (is_nan_eq prec emax x Nx); split; [destruct y; discriminate|intros (H & _); discriminate]|].
  destruct (is_nan y) eqn:Ny; [rewrite (is_nan_eq prec emax y Ny); split; [destruct x as [|[]| |[]]; discriminate|intros (_ & H & _); discriminate]|].
  pose proof (ev_compare prec emax x y Nx Ny) as C. unfold Bcompare in C. unfold Beqb, SpecFloat.SFeqb. rewrite C.
  destruct (Rcompare_spec (ev prec emax x) (ev prec emax y)); split; try discriminate; try tauto; lra.
Qed.
Lemma beqb_zero (x : fl) : Beqb x (B754_zero false) = true <-> exists s, x = B754_zero s.
Proof.
  split; [|intros [s ->]; reflexivity].
  destruct x as [s|s| |s m e B]; try (destruct s; discriminate); try discriminate. intros _. exists s. reflexivity.
Qed.
Definition rgb_same (a b : rgbf fl) : Prop := same (rgb_r a) (rgb_r b) /\ same (rgb_g a) (rgb_g b) /\ same (rgb_b a) (rgb_b b).
Definition xyz_same (a b : xyz fl) : Prop := same (xyz_x a) (xyz_x b) /\ same (xyz_y a) (xyz_y b) /\ same (xyz_z a) (xyz_z b).
Lemma rgb_eqb_same a b : rgb_eqb a b = true <-> rgb_same a b.
Proof.
  unfold rgb_eqb, rgb_same. rewrite !andb_true_iff. cbn [req clops b_ops]. rewrite !beqb_same. tauto.
Qed.
Lemma xyz_eqb_same a b : xyz_eqb a b = true <-> xyz_same a b.
Proof.
  unfold xyz_eqb, xyz_same. rewrite !andb_true_iff. cbn [req clops b_ops]. rewrite !beqb_same. tauto.
Qed.
Lemma same_refl x : same x x <-> is_nan x = false.
Proof. unfold same. tauto. Qed.
Lemma same_sym x y : same x y -> same y x.
Proof. unfold same. intuition. Qed.
Lemma same_trans x y z : same x y -> same y z -> same x z.
Proof. unfold same. intuition congruence. Qed.
Lemma bool_sym {A} (f : A -> A -> bool) (P : A -> A -> Prop) : (forall a b, f a b = true <-> P a b) -> (forall a b, P a b -> P b a) ->
  forall a b, f a b = f b a.
Proof.
  intros E S a b. destruct (f a b) eqn:X, (f b a) eqn:Y; try reflexivity.
  - apply E, S, E in X. congruence.
  - apply E, S, E in Y. congruence.
Qed.
(* == compares channel by channel as IEEE does; it is symmetric and transitive, reflexive
   exactly on colours without NaN; is_zero holds exactly when every channel is +0 or -0 *)
Definition colour_eq_spec : Prop :=
  (forall a b : rgbf fl, rgb_eqb a b = true <-> rgb_same a b)
  /\ (forall a b : rgbf fl, rgb_eqb a b = rgb_eqb b a)
  /\ (forall a b c : rgbf fl, rgb_eqb a b = true -> rgb_eqb b c = true -> rgb_eqb a c = true)
  /\ (forall a : rgbf fl, rgb_eqb a a = true <-> is_nan (rgb_r a) = false /\ is_nan (rgb_g a) = false /\ is_nan (rgb_b a) = false)
  /\ (forall c : rgbf fl, rgb_is_zero c = true <-> exists s t u, c = Rgb (B754_zero s) (B754_zero t) (B754_zero u))
  /\ (forall a b : xyz fl, xyz_eqb a b = true <-> xyz_same a b)
  /\ (forall a b : xyz fl, xyz_eqb a b = xyz_eqb b a)
  /\ (forall a b c : xyz fl, xyz_eqb a b = true -> xyz_eqb b c = true -> xyz_eqb a c = true)
  /\ (forall a : xyz fl, xyz_eqb a a = true <-> is_nan (xyz_x a) = false /\ is_nan (xyz_y a) = false /\ is_nan (xyz_z a) = false)
  /\ (forall c : xyz fl, xyz_is_zero c = true <-> exists s t u, c = Xyz (B754_zero s) (B754_zero t) (B754_zero u)).
Lemma colour_eq_holds : colour_eq_spec.
Proof.
  assert (RS : forall a b, rgb_same a b -> rgb_same b a) by (intros a b (A & B & C); split; [|split]; apply same_sym; assumption).
  assert (XS : forall a b, xyz_same a b -> xyz_same b a) by (intros a b (A & B & C); split; [|split]; apply same_sym; assumption).
  split; [exact rgb_eqb_same|]. split; [exact (bool_sym _ _ rgb_eqb_same RS)|]. split.
  { intros a b c. rewrite !rgb_eqb_same. intros (A & B & C) (A' & B' & C'). split; [|split]; eapply same_trans; eassumption. }
  split. { intros a. rewrite rgb_eqb_same. unfold rgb_same. rewrite !same_refl. reflexivity. }
  split. { intros [r g b]. unfold rgb_is_zero. rewrite !andb_true_iff. cbn [req rzero clops b_ops rgb_r rgb_g rgb_b]. rewrite !beqb_zero. split.
    - intros (([s ->] & [t ->]) & [u ->]). exists s, t, u. reflexivity.
    - intros (s & t & u & E). injection E as -> -> ->. repeat split; eexists; reflexivity. }
  split; [exact xyz_eqb_same|]. split; [exact (bool_sym _ _ xyz_eqb_same XS)|]. split.
  { intros a b c. rewrite !xyz_eqb_same. intros (A & B & C) (A' & B' & C'). split; [|split]; eapply same_trans; eassumption. }
  split. { intros a. rewrite xyz_eqb_same. unfold xyz_same. rewrite !same_refl. reflexivity. }
  intros [r g b]. unfold xyz_is_zero. rewrite !andb_true_iff. cbn [req rzero clops b_ops xyz_x xyz_y xyz_z]. rewrite !beqb_zero. split.
  - intros (([s ->] & [t ->]) & [u ->]). exists s, t, u. reflexivity.
  - intros (s & t & u & E). injection E as -> -> ->. repeat split; eexists; reflexivity.
Qed.
End ColourEq.
Theorem C82_colour_equality : (forall L : libm f32, colour_eq_spec 24 128 L (b_of_Q 24 128)) /\ (forall L : libm f64, colour_eq_spec 53 1024 L (b_of_Q 53 1024)).
Proof. split; intro L; apply colour_eq_holds. Qed.
Example C82_example (L : libm f32) : let O := f32_ops L in let z : f32 := B754_zero false in let n : f32 := B754_zero true in
  rgb_eqb (Rgb z n (Bone : f32)) (Rgb n z (Bone : f32)) = true
  /\ rgb_eqb (Rgb z n (B754_nan : f32)) (Rgb z n (B754_nan : f32)) = false
  /\ rgb_eqb (Rgb z z (Bone : f32)) (Rgb z z (Bopp Bone : f32)) = false
  /\ rgb_is_zero (Rgb z n z) = true /\ rgb_is_zero (Rgb z z (Bone : f32)) = false /\ xyz_is_zero (Xyz n n n) = true.
Proof. repeat split. Qed.
Print Assumptions C82_colour_equality.
