(* C128: the linear conversions and the fast spectrum conversions are odd in floating point *)
From Coq Require Import Reals ZArith QArith Qreals Lra Lia Bool List.
From Flocq Require Import Core BinarySingleNaN.
From Verif Require Import Outcome RealOps MathModel ColorModel SpdModel SpaceModel IllumModel TransformModel XReal FloatInst FloatProofs DataSpd PropFast.
Import ListNotations.
Open Scope R_scope.

(* y == -x in the sense of the comparison of floats, or both are NaN *)
Definition opposite {prec emax} (x y : binary_float prec emax) : Prop := (is_nan x = true /\ is_nan y = true) \/ Beqb y (Bopp x) = true.

Section Odd.
Context (prec emax : Z) {Hp : Prec_gt_0 prec} {He : Prec_lt_emax prec emax}.
Notation fl := (binary_float prec emax).
Notation fexp := (SpecFloat.fexp prec emax).
Notation rnd := (round radix2 fexp ZnearestE).

Definition op (x y : fl) : Prop := (x = B754_nan /\ y = B754_nan) \/ (exists b, x = B754_infinity b /\ y = B754_infinity (negb b)) \/ (is_finite x = true /\ is_finite y = true /\ B2R y = - B2R x).
Lemma op_opposite x y : op x y -> opposite x y.
Proof.
  intros [(-> & ->)|[(b & -> & ->)|(F & G & E)]]; [left; split; reflexivity|right; destruct b; reflexivity|right].
  rewrite Beqb_correct; [|exact G|rewrite is_finite_Bopp; exact F]. rewrite B2R_Bopp, E. apply Req_bool_true. reflexivity.
Qed.
Lemma op_opp (x : fl) : op x (Bopp x).
Proof. destruct x as [b|b| |b m e B]; [right; right|right; left; exists b|left|right; right]; try (split; reflexivity); (split; [reflexivity|split; [reflexivity|exact (B2R_Bopp prec emax _)]]). Qed.
Lemma op_zero (z : fl) : is_finite z = true -> B2R z = 0 -> op z z.
Proof. intros F V. right; right. rewrite V. repeat split; try assumption. ring. Qed.

(* a finite number is a zero or has the sign of its value *)
Lemma fin_cases (x : fl) : is_finite x = true -> (exists b, x = B754_zero b) \/ (exists b m e B, x = B754_finite b m e B /\ B2R x <> 0 /\ (b = true <-> B2R x < 0)).
Proof.
  destruct x as [b|b| |b m e B]; intro F; try discriminate F; [left; exists b; reflexivity|right]. exists b, m, e, B. split; [reflexivity|]. unfold B2R, F2R. cbn [Fnum Fexp].
  pose proof (bpow_gt_0 radix2 e) as P. assert (M : 0 < IZR (Zpos m)) by (apply IZR_lt; reflexivity). assert (0 < IZR (Zpos m) * bpow radix2 e) by (apply Rmult_lt_0_compat; assumption).
  destruct b; cbn [cond_Zopp]; [change (- Z.pos m)%Z with (Z.opp (Z.pos m)); rewrite opp_IZR|]; (split; [lra|split; intro; try reflexivity; try discriminate; lra]).
Qed.
Lemma nz_sign (x y : fl) : is_finite x = true -> is_finite y = true -> B2R y = - B2R x -> B2R x <> 0 -> Bsign y = negb (Bsign x).
Proof.
  intros F G E N. destruct (fin_cases x F) as [(b & ->)|(b & m & e & B & -> & _ & S1)]; [exfalso; apply N; reflexivity|].
  destruct (fin_cases y G) as [(c & ->)|(c & m' & e' & B' & -> & _ & S2)]; [exfalso; apply N; cbn [B2R] in E |- *; lra|]. cbn [Bsign]. destruct b, c; try reflexivity; exfalso.
  - pose proof (proj1 S1 eq_refl). pose proof (proj1 S2 eq_refl). lra.
  - assert (~ B2R (B754_finite false m e B) < 0) by (intro Q1; apply S1 in Q1; discriminate). assert (~ B2R (B754_finite false m' e' B') < 0) by (intro Q1; apply S2 in Q1; discriminate). lra.
Qed.
Lemma over_inf (z : fl) s : B2SF z = binary_overflow prec emax mode_NE s -> z = B754_infinity s.
Proof. unfold binary_overflow, overflow_to_inf. destruct z; cbn; intro H; inversion H; reflexivity. Qed.
(* both results come from opposite values *)
Lemma op_rounded (z z' : fl) v s s' :
  (if Rlt_bool (Rabs (rnd v)) (bpow radix2 emax) then B2R z = rnd v /\ is_finite z = true else B2SF z = binary_overflow prec emax mode_NE s) ->
  (if Rlt_bool (Rabs (rnd (- v))) (bpow radix2 emax) then B2R z' = rnd (- v) /\ is_finite z' = true else B2SF z' = binary_overflow prec emax mode_NE s') ->
  (bpow radix2 emax <= Rabs (rnd v) -> s' = negb s) -> op z z'.
Proof.
  rewrite round_NE_opp, Rabs_Ropp. destruct (Rlt_bool_spec (Rabs (rnd v)) (bpow radix2 emax)) as [B|B]; intros A A' N.
  - destruct A as (V & F). destruct A' as (V' & F'). right; right. rewrite V, V'. repeat split; assumption.
  - right; left. exists s. rewrite <- (N B). split; apply over_inf; assumption.
Qed.
Lemma over_nz v : bpow radix2 emax <= Rabs (rnd v) -> v <> 0.
Proof. intros B ->. rewrite round_0, Rabs_R0 in B by apply valid_rnd_N. pose proof (bpow_gt_0 radix2 emax). lra. Qed.

Lemma op_mul (a x y : fl) : op x y -> op (Bmult mode_NE a x) (Bmult mode_NE a y) /\ op (Bmult mode_NE x a) (Bmult mode_NE y a).
Proof.
  intros [(-> & ->)|[(b & -> & ->)|(F & G & E)]].
  - destruct a; split; left; split; reflexivity.
  - destruct a as [c|c| |c m e B]; try (split; left; split; reflexivity); (split; right; left; eexists; (split; [reflexivity|destruct b, c; reflexivity])).
  - destruct (is_finite a) eqn:Fa.
    + split.
      * pose proof (Bmult_correct prec emax _ _ mode_NE a x) as C1. pose proof (Bmult_correct prec emax _ _ mode_NE a y) as C2. cbn [round_mode] in C1, C2. rewrite Fa, F in C1. rewrite Fa, G in C2. rewrite E in C2. replace (B2R a * - B2R x) with (- (B2R a * B2R x)) in C2 by ring.
        apply (op_rounded _ _ (B2R a * B2R x) (xorb (Bsign a) (Bsign x)) (xorb (Bsign a) (Bsign y))).
        { revert C1. match goal with |- (if ?b then _ else _) -> _ => destruct b end; intro H; [destruct H as (U1 & U2 & _); split; assumption|exact H]. }
        { revert C2. match goal with |- (if ?b then _ else _) -> _ => destruct b end; intro H; [destruct H as (U1 & U2 & _); split; assumption|exact H]. }
        intro B. apply over_nz in B. rewrite (nz_sign x y F G E); [destruct (Bsign a), (Bsign x); reflexivity|]. intro X. apply B. rewrite X. ring.
      * pose proof (Bmult_correct prec emax _ _ mode_NE x a) as C1. pose proof (Bmult_correct prec emax _ _ mode_NE y a) as C2. cbn [round_mode] in C1, C2. rewrite Fa, F in C1. rewrite Fa, G in C2. rewrite E in C2. replace (- B2R x * B2R a) with (- (B2R x * B2R a)) in C2 by ring.
        apply (op_rounded _ _ (B2R x * B2R a) (xorb (Bsign x) (Bsign a)) (xorb (Bsign y) (Bsign a))).
        { revert C1. match goal with |- (if ?b then _ else _) -> _ => destruct b end; intro H; [destruct H as (U1 & U2 & _); split; assumption|exact H]. }
        { revert C2. match goal with |- (if ?b then _ else _) -> _ => destruct b end; intro H; [destruct H as (U1 & U2 & _); split; assumption|exact H]. }
        intro B. apply over_nz in B. rewrite (nz_sign x y F G E); [destruct (Bsign a), (Bsign x); reflexivity|]. intro X. apply B. rewrite X. ring.
    + destruct (fin_cases x F) as [(b & ->)|(b & m & e & B & -> & N & S1)].
      * destruct (fin_cases y G) as [(c & ->)|(c & m' & e' & B' & -> & N' & _)]; [|exfalso; apply N'; rewrite E; cbn [B2R]; ring]. destruct a; try discriminate Fa; split; left; split; reflexivity.
      * pose proof (nz_sign _ y F G E N) as S. destruct (fin_cases y G) as [(c & ->)|(c & m' & e' & B' & -> & N' & _)]; [exfalso; apply N; cbn [B2R] in E |- *; lra|]. cbn [Bsign] in S. subst c.
        destruct a as [d|d| |d md ed Bd]; try discriminate Fa; [|split; left; split; reflexivity]. split; right; left; eexists; (split; [reflexivity|destruct b, d; reflexivity]).
Qed.
Lemma op_div (a x y : fl) : is_finite a = true -> B2R a <> 0 -> op x y -> op (Bdiv mode_NE x a) (Bdiv mode_NE y a).
Proof.
  intros Fa Na [(-> & ->)|[(b & -> & ->)|(F & G & E)]].
  - destruct a; left; split; reflexivity.
  - destruct a as [c|c| |c m e B]; try discriminate Fa; right; left; eexists; (split; [reflexivity|destruct b, c; reflexivity]).
  - pose proof (Bdiv_correct prec emax _ _ mode_NE x a Na) as C1. pose proof (Bdiv_correct prec emax _ _ mode_NE y a Na) as C2. cbn [round_mode] in C1, C2. rewrite F in C1. rewrite G in C2. rewrite E in C2. replace (- B2R x / B2R a) with (- (B2R x / B2R a)) in C2 by (unfold Rdiv; ring).
    apply (op_rounded _ _ (B2R x / B2R a) (xorb (Bsign x) (Bsign a)) (xorb (Bsign y) (Bsign a))).
    { revert C1. match goal with |- (if ?b then _ else _) -> _ => destruct b end; intro H; [destruct H as (U1 & U2 & _); split; assumption|exact H]. }
    { revert C2. match goal with |- (if ?b then _ else _) -> _ => destruct b end; intro H; [destruct H as (U1 & U2 & _); split; assumption|exact H]. }
    intro B. apply over_nz in B. rewrite (nz_sign x y F G E); [destruct (Bsign a), (Bsign x); reflexivity|]. intro X. apply B. rewrite X. unfold Rdiv. ring.
Qed.
Lemma sign_le (x : fl) : is_finite x = true -> if Bsign x then B2R x <= 0 else 0 <= B2R x.
Proof.
  intro F. destruct (fin_cases x F) as [(b & ->)|(b & m & e & B & -> & N & S1)]; [destruct b; cbn [B2R Bsign]; lra|]. cbn [Bsign]. destruct b; [pose proof (proj1 S1 eq_refl); lra|].
  destruct (Rlt_le_dec (B2R (B754_finite false m e B)) 0) as [Q1|Q1]; [apply S1 in Q1; discriminate Q1|exact Q1].
Qed.
Lemma op_add (x y x' y' : fl) : op x y -> op x' y' -> op (Bplus mode_NE x x') (Bplus mode_NE y y').
Proof.
  intros [(-> & ->)|[(b & -> & ->)|(F & G & E)]] P'.
  - left; split; reflexivity.
  - destruct P' as [(-> & ->)|[(b' & -> & ->)|(F' & G' & E')]]; [left; split; reflexivity|destruct b, b'; first [left; split; reflexivity|right; left; eexists; split; reflexivity]|].
    destruct x' as [d|d| |d md ed Bd]; try discriminate F'; destruct y' as [c|c| |c mc ec Bc]; try discriminate G'; right; left; exists b; split; reflexivity.
  - destruct P' as [(-> & ->)|[(b' & -> & ->)|(F' & G' & E')]].
    + destruct x, y; left; split; reflexivity.
    + destruct x as [d|d| |d md ed Bd]; try discriminate F; destruct y as [c|c| |c mc ec Bc]; try discriminate G; right; left; exists b'; split; reflexivity.
    + pose proof (Bplus_correct prec emax _ _ mode_NE x x' F F') as C1. pose proof (Bplus_correct prec emax _ _ mode_NE y y' G G') as C2. cbn [round_mode] in C1, C2. rewrite E, E' in C2. replace (- B2R x + - B2R x') with (- (B2R x + B2R x')) in C2 by ring.
      apply (op_rounded _ _ (B2R x + B2R x') (Bsign x) (Bsign y)).
      { revert C1. match goal with |- (if ?b then _ else _) -> _ => destruct b end; intro H; [destruct H as (U1 & U2 & _); split; assumption|exact (proj1 H)]. }
      { revert C2. match goal with |- (if ?b then _ else _) -> _ => destruct b end; intro H; [destruct H as (U1 & U2 & _); split; assumption|exact (proj1 H)]. }
      intro B. pose proof (over_nz _ B) as N. rewrite round_NE_opp, Rabs_Ropp in C2. rewrite Rlt_bool_false in C1, C2 by exact B. destruct C1 as (_ & S1). destruct C2 as (_ & S2).
      pose proof (sign_le x F) as L1. pose proof (sign_le x' F') as L2. pose proof (sign_le y G) as L3. pose proof (sign_le y' G') as L4. rewrite <- S1 in L2. rewrite <- S2 in L4. rewrite E in L3. rewrite E' in L4.
      destruct (Bsign x), (Bsign y); try reflexivity; exfalso; apply N; lra.
Qed.
Lemma op_neg (x y : fl) : op x y -> op (Bopp x) (Bopp y).
Proof. intros [(-> & ->)|[(b & -> & ->)|(F & G & E)]]; [left; split; reflexivity|right; left; exists (negb b); split; reflexivity|]. right; right. rewrite !is_finite_Bopp, !B2R_Bopp, E. repeat split; assumption. Qed.
Lemma op_sub (x y x' y' : fl) : op x y -> op x' y' -> op (Bminus mode_NE x x') (Bminus mode_NE y y').
Proof. intros P P'. assert (E : forall a b : fl, Bminus mode_NE a b = Bplus mode_NE a (Bopp b)) by (intros [?|?| |? ? ? ?] [?|?| |? ? ? ?]; reflexivity). rewrite !E. apply op_add; [exact P|apply op_neg; exact P']. Qed.

Context (L : libm fl) (lit : Q -> fl).
Notation O := (b_ops prec emax L lit).
Definition opx (a b : xyz fl) : Prop := op (xyz_x a) (xyz_x b) /\ op (xyz_y a) (xyz_y b) /\ op (xyz_z a) (xyz_z b).
Lemma row (a b c x y z x' y' z' : fl) : op x x' -> op y y' -> op z z' -> op (Bplus mode_NE (Bplus mode_NE (Bmult mode_NE a x) (Bmult mode_NE b y)) (Bmult mode_NE c z)) (Bplus mode_NE (Bplus mode_NE (Bmult mode_NE a x') (Bmult mode_NE b y')) (Bmult mode_NE c z')).
Proof. intros. repeat apply op_add; apply op_mul; assumption. Qed.
Lemma odd_to_xyz (M : mat33 fl) (c : rgbf fl) : opx (@rgb_to_xyz _ O M c) (@rgb_to_xyz _ O M (@rgb_neg _ O c)).
Proof. repeat split; refine (proj2 (op_mul _ _ _ _)); apply row; apply op_opp. Qed.
Lemma odd_to_rgb (M : mat33 fl) (c : xyz fl) : is_finite (lit 100.0) = true -> B2R (lit 100.0) <> 0 ->
  let r := @xyz_to_rgb _ O M c in let r' := @xyz_to_rgb _ O M (@xyz_neg _ O c) in op (rgb_r r) (rgb_r r') /\ op (rgb_g r) (rgb_g r') /\ op (rgb_b r) (rgb_b r').
Proof. intros F N. repeat split; apply row; (apply op_div; [exact F|exact N|apply op_opp]). Qed.

(* the compensated loop *)
Lemma opx_add a b a' b' : opx a b -> opx a' b' -> opx (@xyz_add _ O a a') (@xyz_add _ O b b').
Proof. intros (A & B & C) (A' & B' & C'). repeat split; apply op_add; assumption. Qed.
Lemma opx_sub a b a' b' : opx a b -> opx a' b' -> opx (@xyz_sub _ O a a') (@xyz_sub _ O b b').
Proof. intros (A & B & C) (A' & B' & C'). repeat split; apply op_sub; assumption. Qed.
Lemma kahan_odd ts ts' : Forall2 opx ts ts' -> forall a a' c c', opx a a' -> opx c c' -> opx (fst (fold_left (@kahan_step _ O) ts (a, c))) (fst (fold_left (@kahan_step _ O) ts' (a', c'))).
Proof.
  induction 1 as [|t t' ts ts' T _ IH]; intros a a' c c' A C; [exact A|]. cbn [fold_left]. unfold kahan_step at 2 4. apply IH.
  - apply opx_add; [exact A|apply opx_sub; assumption].
  - apply opx_sub; [apply opx_sub; [apply opx_add; [exact A|apply opx_sub; assumption]|exact A]|apply opx_sub; assumption].
Qed.
Lemma terms_odd (wx wy wz v : list fl) : Forall2 opx
  (map (fun '((s, x), (y, z)) => Xyz (Bmult mode_NE s x) (Bmult mode_NE s y) (Bmult mode_NE s z)) (combine (combine v wx) (combine wy wz)))
  (map (fun '((s, x), (y, z)) => Xyz (Bmult mode_NE s x) (Bmult mode_NE s y) (Bmult mode_NE s z)) (combine (combine (map Bopp v) wx) (combine wy wz))).
Proof.
  revert wx wy wz. induction v as [|s v IH]; intros [|x wx] [|y wy] [|z wz]; cbn [map combine]; try constructor; [|apply IH]. repeat split; refine (proj2 (op_mul _ _ _ _)); apply op_opp.
Qed.
Lemma odd_scalar (wx wy wz v : list fl) : is_finite (b_of_Q prec emax 0.0) = true -> B2R (b_of_Q prec emax 0.0) = 0 -> opx (@spd_to_xyz_scalar _ O wx wy wz v) (@spd_to_xyz_scalar _ O wx wy wz (map Bopp v)).
Proof. intros F Z0. unfold spd_to_xyz_scalar. cbv zeta. apply kahan_odd; [apply terms_odd|repeat split; apply op_zero; assumption..]. Qed.
(* the lanes of the AVX loop *)
Notation opl := (Forall2 op).
Lemma opl_first n (a b : list fl) : opl a b -> opl (firstn n a) (firstn n b).
Proof. intro H. revert n. induction H; intros [|n]; cbn [firstn]; constructor; [assumption|apply IHForall2]. Qed.
Lemma opl_skip n (a b : list fl) : opl a b -> opl (skipn n a) (skipn n b).
Proof. intro H. revert n. induction H; intros [|n]; cbn [skipn]; try constructor; try assumption. apply IHForall2. Qed.
Lemma opl_load (a b : list fl) n : opl a b -> opl (mm256_loadu a n) (mm256_loadu b n).
Proof. intro H. apply opl_first, opl_skip, H. Qed.
Lemma opl_mul (a b w : list fl) : opl a b -> opl (@mm256_mul _ O a w) (@mm256_mul _ O b w).
Proof. intro H. revert w. induction H as [|x y a b P _ IH]; intros [|u w]; cbn; constructor; [apply op_mul, P|apply IH]. Qed.
Lemma opl_add (a b c d : list fl) : opl a b -> opl c d -> opl (@mm256_add _ O a c) (@mm256_add _ O b d).
Proof. intro H. revert c d. induction H as [|x y a b P _ IH]; intros c d G; [constructor|]. destruct G as [|u v c d P' G]; cbn; constructor; [apply op_add; assumption|apply IH, G]. Qed.
Lemma opl_hadd (a b : list fl) : opl a b -> opl (@mm256_hadd _ O a a) (@mm256_hadd _ O b b).
Proof.
  intro H. do 8 (destruct H as [|? ? ? ? ? H]; [constructor|]). destruct H as [|? ? ? ? ? H]; [|constructor]. cbn. repeat (apply Forall2_cons; [apply op_add; assumption|]). apply Forall2_nil.
Qed.
Lemma opl_swap (a b : list fl) : opl a b -> opl (mm256_swap128 a) (mm256_swap128 b).
Proof. intro H. apply Forall2_app; [apply opl_skip, H|apply opl_first, H]. Qed.
Lemma odd_avx (w v : list fl) : is_finite (b_of_Q prec emax 0.0) = true -> B2R (b_of_Q prec emax 0.0) = 0 -> op (@avx_channel _ O w v) (@avx_channel _ O w (map Bopp v)).
Proof.
  intros F Z0. assert (V : opl v (map Bopp v)) by (induction v; cbn [map]; constructor; [apply op_opp|assumption]). unfold avx_channel, hadd_avx. cbv zeta.
  match goal with |- op (nth 0 ?a _) (nth 0 ?b _) => assert (H : opl a b); [|destruct H; [apply op_zero; assumption|assumption]] end.
  apply opl_hadd, opl_hadd. assert (X : forall a b, opl a b -> opl (@mm256_add _ O a (mm256_swap128 a)) (@mm256_add _ O b (mm256_swap128 b))) by (intros a b H; apply opl_add; [exact H|apply opl_swap, H]). apply X.
  repeat apply opl_add; apply opl_mul, opl_load, V.
Qed.
End Odd.

Lemma lit32_100 : is_finite (f64_to_f32 (b_of_Q 53 1024 100.0)) = true /\ B2R (f64_to_f32 (b_of_Q 53 1024 100.0)) <> 0.
Proof.
  split; [vm_compute; reflexivity|]. rewrite <- SF2R_B2SF. change (B2SF (f64_to_f32 (b_of_Q 53 1024 100.0))) with (SpecFloat.S754_finite false 13107200 (-17)). unfold SF2R, F2R. cbn [Fnum Fexp cond_Zopp]. change (bpow radix2 (-17)) with (/ 131072). lra.
Qed.
Lemma lit64_100 : is_finite (b_of_Q 53 1024 100.0) = true /\ B2R (b_of_Q 53 1024 100.0) <> 0.
Proof.
  split; [vm_compute; reflexivity|]. assert (E : B2SF (b_of_Q 53 1024 100.0) = SpecFloat.S754_finite false 7036874417766400 (-46)) by (vm_compute; reflexivity). rewrite <- SF2R_B2SF, E. unfold SF2R, F2R. cbn [Fnum Fexp cond_Zopp]. pose proof (bpow_gt_0 radix2 (-46)). lra.
Qed.
Definition opposite_rgb {p e} (a b : rgbf (binary_float p e)) : Prop := opposite (rgb_r a) (rgb_r b) /\ opposite (rgb_g a) (rgb_g b) /\ opposite (rgb_b a) (rgb_b b).
Definition opposite_xyz {p e} (a b : xyz (binary_float p e)) : Prop := opposite (xyz_x a) (xyz_x b) /\ opposite (xyz_y a) (xyz_y b) /\ opposite (xyz_z a) (xyz_z b).

(* any matrix, any colour, infinities and NaN included *)
Theorem C128_linear_f32 (L : libm f32) (M : mat33 f32) : (forall c, opposite_xyz (@rgb_to_xyz _ (f32_ops L) M c) (@rgb_to_xyz _ (f32_ops L) M (@rgb_neg _ (f32_ops L) c)))
  /\ (forall c, opposite_rgb (@xyz_to_rgb _ (f32_ops L) M c) (@xyz_to_rgb _ (f32_ops L) M (@xyz_neg _ (f32_ops L) c))).
Proof.
  destruct lit32_100 as (F & N). split; intro c.
  - destruct (odd_to_xyz 24 128 L (fun q => f64_to_f32 (b_of_Q 53 1024 q)) M c) as (A & B & C). repeat split; apply op_opposite; assumption.
  - destruct (odd_to_rgb 24 128 L (fun q => f64_to_f32 (b_of_Q 53 1024 q)) M c F N) as (A & B & C). repeat split; apply op_opposite; assumption.
Qed.
Theorem C128_linear_f64 (L : libm f64) (M : mat33 f64) : (forall c, opposite_xyz (@rgb_to_xyz _ (f64_ops L) M c) (@rgb_to_xyz _ (f64_ops L) M (@rgb_neg _ (f64_ops L) c)))
  /\ (forall c, opposite_rgb (@xyz_to_rgb _ (f64_ops L) M c) (@xyz_to_rgb _ (f64_ops L) M (@xyz_neg _ (f64_ops L) c))).
Proof.
  destruct lit64_100 as (F & N). split; intro c.
  - destruct (odd_to_xyz 53 1024 L (b_of_Q 53 1024) M c) as (A & B & C). repeat split; apply op_opposite; assumption.
  - destruct (odd_to_rgb 53 1024 L (b_of_Q 53 1024) M c F N) as (A & B & C). repeat split; apply op_opposite; assumption.
Qed.
Theorem C128_fast (L : libm f32) (v : list f32) : opposite_xyz (fast_scalar L v) (fast_scalar L (map (@Bopp 24 128) v)) /\ opposite_xyz (fast_avx L v) (fast_avx L (map (@Bopp 24 128) v)).
Proof.
  assert (E : B2SF (b_of_Q 24 128 0.0) = SpecFloat.S754_zero false) by (vm_compute; reflexivity). assert (Z0 : is_finite (b_of_Q 24 128 0.0) = true /\ B2R (b_of_Q 24 128 0.0) = 0) by (destruct (b_of_Q 24 128 0.0); try discriminate E; split; reflexivity).
  destruct Z0 as (F & Z0). set (lit := fun q => f64_to_f32 (b_of_Q 53 1024 q)). split.
  - destruct (odd_scalar 24 128 L lit (W32 data_W_X) (W32 data_W_Y) (W32 data_W_Z) v F Z0) as (A & B & C). repeat split; apply op_opposite; assumption.
  - repeat split; apply op_opposite; [exact (odd_avx 24 128 L lit (W32 data_W_X) v F Z0)|exact (odd_avx 24 128 L lit (W32 data_W_Y) v F Z0)|exact (odd_avx 24 128 L lit (W32 data_W_Z) v F Z0)].
Qed.

(* equality of floats, not of bits: a black and a negative black of XYZ both have a positive zero for red in sRGB *)
Theorem C128_black_refuted (L : libm f32) : exists M c, @xyz_to_rgb_matrix _ (f32_ops L) (@xy_D65 _ (f32_ops L)) (@SRGB _ (f32_ops L)) = Ret M /\
  rgb_r (@xyz_to_rgb _ (f32_ops L) M (@xyz_neg _ (f32_ops L) c)) <> Bopp (rgb_r (@xyz_to_rgb _ (f32_ops L) M c)).
Proof.
  set (c := Xyz (B754_zero false : f32) (B754_zero false : f32) (B754_zero false : f32)).
  assert (C : match @xyz_to_rgb_matrix _ (f32_ops L) (@xy_D65 _ (f32_ops L)) (@SRGB _ (f32_ops L)) with Ret M => negb (Bool.eqb (Bsign (rgb_r (@xyz_to_rgb _ (f32_ops L) M (@xyz_neg _ (f32_ops L) c)))) (Bsign (Bopp (rgb_r (@xyz_to_rgb _ (f32_ops L) M c))))) | _ => false end = true) by (vm_compute; reflexivity).
  destruct (@xyz_to_rgb_matrix _ (f32_ops L) (@xy_D65 _ (f32_ops L)) (@SRGB _ (f32_ops L))) as [M| |]; try discriminate C. exists M, c. split; [reflexivity|]. intro E. rewrite E, Bool.eqb_reflx in C. discriminate C.
Qed.
(* the opposite of a colour too bright for f32 becomes minus infinity where the colour becomes infinite *)
Example C128_example (L : libm f32) : let z n := b_of_Z 24 128 n in let m : f32 := @Bmax_float 24 128 _ _ in let M := Mat33 (z 1%Z) (z 0%Z) (z 0%Z) (z 0%Z) (z 2%Z) (z 0%Z) (z 0%Z) (z 0%Z) (z 1%Z) in let c := Rgb (z 3%Z) m (z 0%Z) in
  xyz_y (@rgb_to_xyz _ (f32_ops L) M c) = B754_infinity false /\ opposite (B754_infinity false : f32) (xyz_y (@rgb_to_xyz _ (f32_ops L) M (@rgb_neg _ (f32_ops L) c)))
  /\ Beqb (xyz_x (@rgb_to_xyz _ (f32_ops L) M c)) (z 300%Z) = true /\ opposite (xyz_x (@rgb_to_xyz _ (f32_ops L) M c)) (xyz_x (@rgb_to_xyz _ (f32_ops L) M (@rgb_neg _ (f32_ops L) c))).
Proof.
  cbv zeta. match goal with |- context [@rgb_to_xyz _ _ ?M ?c] => destruct (proj1 (C128_linear_f32 L M) c) as (A & B & _) end.
  match goal with |- ?P /\ _ => assert (E : P) by (vm_compute; reflexivity) end.
  split; [exact E|]. split; [exact (eq_ind _ (fun t => opposite t _) B _ E)|]. split; [vm_compute; reflexivity|exact A].
Qed.
