(* C106: colour differences in floating point.  Both formulas give the same bits in either order,
   for every pair of colours; equal colours are at distance zero; the 1976 distance is accurate to a
   few units in the last place, but vanishes on colours that are close enough to underflow. *)
From Coq Require Import Reals ZArith QArith Qreals Lra Lia Bool List.
From Flocq Require Import Core BinarySingleNaN.
From Verif Require Import Outcome RealOps MathModel ColorModel LabModel FloatInst FloatProofs ErrProofs OppProofs XReal CurveProofs RelErr.
Import ListNotations.
Open Scope R_scope.
Local Notation Q := QArith_base.Q.

(* the formula of 2000 cut in two: the part that the order of the colours reaches, and the rest *)
Section Parts.
Context {T : Type} {O : RealOps T}.
Local Open Scope num_scope.
Definition kfac (Cs : T) : T := rlit 1.0 + rlit 0.5 * (rlit 1.0 - rsqrt (rpowi (Cs / rlit 2.0) 7 / (rpowi (Cs / rlit 2.0) 7 + rpowi (rlit 25.0) 7))).
Definition hdiff (P d : T) : T :=
  if P =? rlit 0.0 then rlit 0.0
  else if rabs d <=? rlit 180.0 then d
  else if d >? rlit 180.0 then d - rlit 360.0
  else d + rlit 360.0.
Definition hmean (P ad s : T) : T :=
  if P =? rlit 0.0 then s
  else if ad <=? rlit 180.0 then s / rlit 2.0
  else if s <? rlit 360.0 then (s + rlit 360.0) / rlit 2.0
  else (s - rlit 360.0) / rlit 2.0.
Definition huepoly (hb : T) : T :=
  rlit 1.0 - rlit 0.17 * rcos (rto_radians (hb - rlit 30.0))
  + rlit 0.24 * rcos (rto_radians (rlit 2.0 * hb))
  + rlit 0.32 * rcos (rto_radians (rlit 3.0 * hb + rlit 6.0))
  - rlit 0.20 * rcos (rto_radians (rlit 4.0 * hb - rlit 63.0)).
Definition sl (Ls : T) : T := rlit 1.0 + (rlit 0.015 * rpowi (Ls / rlit 2.0 - rlit 50.0) 2) / rsqrt (rlit 20.0 + rpowi (Ls / rlit 2.0 - rlit 50.0) 2).
Definition rt (Cs hb : T) : T :=
  - rsin (rto_radians (rlit 2.0 * (rlit 30.0 * rexp (- sqr ((hb - rlit 275.0) / rlit 25.0)))))
  * (rlit 2.0 * rsqrt (rpowi (Cs / rlit 2.0) 7 / (rpowi (Cs / rlit 2.0) 7 + rpowi (rlit 25.0) 7))).
Definition sqsum (x y z r : T) : T := rsqrt (sqr x + sqr y + sqr z + r * (y * z)).
Definition last_part (Ls Cs P dL dC dh hb : T) : T :=
  sqsum (dL / (rlit 1.0 * sl Ls)) (dC / (rlit 1.0 * (rlit 1.0 + rlit 0.045 * (Cs / rlit 2.0))))
    (rlit 2.0 * rsqrt P * rsin (rto_radians (dh / rlit 2.0)) / (rlit 1.0 * (rlit 1.0 + rlit 0.015 * (Cs / rlit 2.0) * huepoly hb))) (rt Cs hb).
Lemma parts (L1 a1 b1 L2 a2 b2 : T) : delta_E_2000 (Lab L1 a1 b1) (Lab L2 a2 b2) =
  let k := kfac (rhypot a1 b1 + rhypot a2 b2) in
  let C1 := rhypot (k * a1) b1 in let C2 := rhypot (k * a2) b2 in
  let h1 := de_hue b1 (k * a1) in let h2 := de_hue b2 (k * a2) in
  last_part (L1 + L2) (C1 + C2) (C1 * C2) (L2 - L1) (C2 - C1) (hdiff (C1 * C2) (h2 - h1)) (hmean (C1 * C2) (rabs (h1 - h2)) (h1 + h2)).
Proof. reflexivity. Qed.
End Parts.

Section Sym.
Context (prec emax : Z) {Hp : Prec_gt_0 prec} {He : Prec_lt_emax prec emax}.
Notation fl := (binary_float prec emax).
Context (L : libm fl) (lit : Q -> fl).
Notation ops := (b_ops prec emax L lit).

(* what is asked of the mathematical library *)
Definition powi_two : Prop := forall x : fl, l_powi L x 2 = Bmult mode_NE x x.
Definition odd (f : fl -> fl) : Prop := (forall x, f (Bopp x) = Bopp (f x)) /\ (forall s, zerof prec emax (f (B754_zero s)) = true).
Lemma odd_opp f x y : odd f -> opp prec emax x y -> opp prec emax (f x) (f y).
Proof. intros [F Z] [->|[-> Y]]; [left; apply F|right; split; [reflexivity|]]. destruct x; try discriminate Y. apply Z. Qed.

Lemma symmetric_1976 (c d : lab fl) : powi_two -> @delta_E_1976 _ ops c d = @delta_E_1976 _ ops d c.
Proof.
  intro P. unfold delta_E_1976. cbn [rsqrt rpowi radd rsub b_ops]. rewrite !P.
  rewrite (opp_sqr prec emax _ _ (minus_swap prec emax (lab_L c) (lab_L d))), (opp_sqr prec emax _ _ (minus_swap prec emax (lab_a c) (lab_a d))), (opp_sqr prec emax _ _ (minus_swap prec emax (lab_b c) (lab_b d))). reflexivity.
Qed.

(* the difference of two hues, brought to the half turn *)
Lemma fold_opp (x y k h : fl) : is_finite h = true -> 0 < B2R h -> opp prec emax x y ->
  let f d := if Bleb (Babs d) h then d else if Bltb h d then Bminus mode_NE d k else Bplus mode_NE d k in opp prec emax (f x) (f y).
Proof.
  intros F Ph O f. unfold f. rewrite <- (opp_abs prec emax _ _ O). destruct (Bleb (Babs x) h) eqn:E; [exact O|]. destruct O as [->|[-> Zx]].
  2: { exfalso. destruct x; try discriminate Zx. cbn [Babs] in E. rewrite leb_intro in E; try reflexivity; [discriminate E|destruct h; try discriminate F; reflexivity|]. rewrite (ev_fin _ _ _ F). cbn [ev B2R]. lra. }
  destruct (is_nan x) eqn:Nx. { apply is_nan_eq in Nx. subst x. cbn [Bopp]. left. rewrite ltb_nan_r. destruct k; reflexivity. }
  assert (Nh : is_nan h = false) by (destruct h; try discriminate F; reflexivity).
  assert (Eh : ev prec emax h = B2R h) by (apply ev_fin, F).
  assert (Eo : ev prec emax (Bopp x) = - ev prec emax x). { destruct x as [s|s| |s m e B]; try (cbn; lra); [destruct s; cbn [ev Bopp negb]; ring|]. change (ev prec emax (Bopp (B754_finite s m e B))) with (B2R (Bopp (B754_finite s m e B))). rewrite B2R_Bopp. reflexivity. }
  assert (Ea : ev prec emax (Babs x) = Rabs (ev prec emax x)). { pose proof (bpow_gt_0 radix2 emax). destruct x as [s|s| |s m e B]; try (cbn; rewrite Rabs_R0; lra); [destruct s; cbn [ev Babs]; [rewrite Rabs_Ropp|]; rewrite Rabs_pos_eq; lra|]. change (ev prec emax (Babs (B754_finite s m e B))) with (B2R (Babs (B754_finite s m e B))). rewrite B2R_Babs. reflexivity. }
  assert (A : B2R h < Rabs (ev prec emax x)). { apply Rnot_le_lt. intro A. rewrite leb_intro in E; [discriminate E|rewrite is_nan_Babs; exact Nx|exact Nh|]. rewrite Ea, Eh. exact A. }
  rewrite !(ev_ltb prec emax h) by (try rewrite is_nan_Bopp; assumption). rewrite Eo, Eh. unfold Rabs in A. destruct (Rcase_abs (ev prec emax x)) as [N|N].
  - rewrite (Rlt_bool_false (B2R h) (ev prec emax x)) by lra. rewrite Rlt_bool_true by lra. rewrite minus_is. apply plus_opp.
  - rewrite (Rlt_bool_true (B2R h) (ev prec emax x)) by lra. rewrite Rlt_bool_false by lra. rewrite minus_is. pose proof (plus_opp prec emax x (Bopp k)) as O. rewrite Bopp_involutive in O. exact O.
Qed.
Lemma choose_opp (b : bool) (x y z : fl) : zerof prec emax z = true -> opp prec emax x y -> opp prec emax (if b then z else x) (if b then z else y).
Proof. intros Z O. destruct b; [right; split; [reflexivity|exact Z]|exact O]. Qed.

Lemma sqsum_opp (x x' y y' z z' r : fl) : opp prec emax x x' -> opp prec emax y y' -> opp prec emax z z' -> @sqsum _ ops x y z r = @sqsum _ ops x' y' z' r.
Proof.
  intros X Y W. unfold sqsum, sqr. cbn [rsqrt radd rmul b_ops]. rewrite <- (opp_sqr prec emax _ _ X), <- (opp_sqr prec emax _ _ Y), <- (opp_sqr prec emax _ _ W). apply f_equal. apply same0_add; [|apply same0_mult, same0_prod; assumption].
  repeat apply plus_plus; apply sqr_plus.
Qed.
Lemma symmetric_2000 (c d : lab fl) : odd (l_sin L) -> odd (l_radians L) -> zerof prec emax (lit 0.0%Q) = true -> is_finite (lit 180.0%Q) = true -> 0 < B2R (lit 180.0%Q) ->
  @delta_E_2000 _ ops c d = @delta_E_2000 _ ops d c.
Proof.
  intros OS OR Z0 F180 P180. destruct c as [L1 a1 b1], d as [L2 a2 b2]. rewrite !parts. cbv zeta. cbn [radd rmul rsub rabs b_ops].
  rewrite (Bplus_comm prec emax (rhypot a2 b2)). set (k := kfac _). set (C1 := rhypot (Bmult mode_NE k a1) b1). set (C2 := rhypot (Bmult mode_NE k a2) b2). set (h1 := de_hue b1 _). set (h2 := de_hue b2 _).
  rewrite (Bmult_comm prec emax C2 C1), (Bplus_comm prec emax C2 C1), (Bplus_comm prec emax L2 L1), (Bplus_comm prec emax h2 h1), <- (opp_abs prec emax _ _ (minus_swap prec emax h1 h2)).
  unfold last_part. apply sqsum_opp; cbn [rdiv b_ops]; apply opp_div; try apply minus_swap.
  cbn [rmul b_ops]. apply opp_mult. cbn [rsin rto_radians b_ops]. apply odd_opp; [exact OS|]. apply odd_opp; [exact OR|]. apply opp_div. unfold hdiff. apply choose_opp; [exact Z0|].
  cbn [rabs rle rlt radd rsub rlit b_ops]. apply (fold_opp _ _ (lit 360.0%Q) (lit 180.0%Q) F180 P180). apply minus_swap.
Qed.
End Sym.

(* ---- ranges ---- *)
Section Rng.
Context (prec emax : Z) {Hp : Prec_gt_0 prec} {He : Prec_lt_emax prec emax} (P24 : (24 <= prec)%Z) (E128 : (128 <= emax)%Z).
Notation fl := (binary_float prec emax).
Notation fexp := (SpecFloat.fexp prec emax).
Notation rnd := (round radix2 fexp ZnearestE).
Notation u := (bpow radix2 (- prec)).
Notation eta := (bpow radix2 (2 - emax - prec)).
Context (L : libm fl) (lit : Q -> fl).
Notation ops := (b_ops prec emax L lit).

Definition rng (x : fl) (a b : R) : Prop := is_finite x = true /\ a <= B2R x <= b.
Lemma rng_w x a b c d : rng x a b -> c <= a -> b <= d -> rng x c d.
Proof. intros [F B] H1 H2. split; [exact F|lra]. Qed.
Lemma u_le : 0 < u <= / 16777216.
Proof. split; [apply bpow_gt_0|]. change (/ 16777216) with (bpow radix2 (-24)). apply bpow_le. lia. Qed.
Lemma eta_le24 : 0 < eta <= / 10 ^ 20.
Proof. split; [apply bpow_gt_0|]. apply Rle_trans with (bpow radix2 (-100)); [apply bpow_le; lia|]. change (bpow radix2 (-100)) with (/ 1267650600228229401496703205376). lra. Qed.
Definition big : R := bpow radix2 120.
Lemma big_is : big = 1329227995784915872903807060280344576. Proof. reflexivity. Qed.
Lemma rnd_in v lo hi M : lo <= v <= hi -> - M <= lo -> hi <= M -> 1 <= M <= big -> lo - 2e-7 * M <= rnd v <= hi + 2e-7 * M /\ Rabs (rnd v) < bpow radix2 emax.
Proof.
  intros H H1 H2 HM. pose proof (rnd_any prec emax v) as A. destruct u_le as [U0 U]. destruct eta_le24 as [T0 T]. assert (V : Rabs v <= M) by (apply Rabs_le; lra).
  assert (UV : u * Rabs v <= / 16777216 * M) by (apply Rmult_le_compat; [lra|apply Rabs_pos|lra|exact V]). apply Rabs_le_inv in A. assert (G : lo - 2e-7 * M <= rnd v <= hi + 2e-7 * M) by lra. split; [exact G|].
  apply Rlt_le_trans with (bpow radix2 128); [|apply bpow_le, E128]. replace (bpow radix2 128) with (256 * big) by (rewrite big_is; change (bpow radix2 128) with 340282366920938463463374607431768211456; lra). rewrite big_is in *. apply Rabs_def1; lra.
Qed.
Lemma rnd_ge k v : (Z.abs k <= 2 ^ prec)%Z -> IZR k <= v -> IZR k <= rnd v.
Proof. intros K H. rewrite <- (rnd_int prec emax k K). apply round_le; try typeclasses eauto. exact H. Qed.
Lemma rnd_le k v : (Z.abs k <= 2 ^ prec)%Z -> v <= IZR k -> rnd v <= IZR k.
Proof. intros K H. rewrite <- (rnd_int prec emax k K). apply round_le; try typeclasses eauto. exact H. Qed.
Lemma two_prec k : (Z.abs k <= 1000)%Z -> (Z.abs k <= 2 ^ prec)%Z.
Proof. intro H. apply Z.le_trans with (2 ^ 24)%Z; [lia|]. apply Z.pow_le_mono_r; lia. Qed.
(* an operation whose exact value is v *)
Lemma add_v (x y : fl) : is_finite x = true -> is_finite y = true -> Rabs (B2R x + B2R y) <= big -> is_finite (Bplus mode_NE x y) = true /\ B2R (Bplus mode_NE x y) = rnd (B2R x + B2R y).
Proof. intros Fx Fy B. pose proof (rnd_in (B2R x + B2R y) (- big) big big) as R. apply Rabs_le_inv in B. destruct R as [_ R]; try lra; [rewrite big_is; lra|]. pose proof (Bplus_correct prec emax _ _ mode_NE x y Fx Fy) as A. cbn [round_mode] in A. rewrite Rlt_bool_true in A by exact R. split; apply A. Qed.
Lemma sub_v (x y : fl) : is_finite x = true -> is_finite y = true -> Rabs (B2R x - B2R y) <= big -> is_finite (Bminus mode_NE x y) = true /\ B2R (Bminus mode_NE x y) = rnd (B2R x - B2R y).
Proof. intros Fx Fy B. pose proof (rnd_in (B2R x - B2R y) (- big) big big) as R. apply Rabs_le_inv in B. destruct R as [_ R]; try lra; [rewrite big_is; lra|]. pose proof (Bminus_correct prec emax _ _ mode_NE x y Fx Fy) as A. cbn [round_mode] in A. rewrite Rlt_bool_true in A by exact R. split; apply A. Qed.
Lemma mul_v (x y : fl) : is_finite x = true -> is_finite y = true -> Rabs (B2R x * B2R y) <= big -> is_finite (Bmult mode_NE x y) = true /\ B2R (Bmult mode_NE x y) = rnd (B2R x * B2R y).
Proof. intros Fx Fy B. pose proof (rnd_in (B2R x * B2R y) (- big) big big) as R. apply Rabs_le_inv in B. destruct R as [_ R]; try lra; [rewrite big_is; lra|]. pose proof (Bmult_correct prec emax _ _ mode_NE x y) as A. cbn [round_mode] in A. rewrite Rlt_bool_true in A by exact R. rewrite Fx, Fy in A. split; apply A. Qed.
Lemma div_v (x y : fl) : is_finite x = true -> B2R y <> 0 -> Rabs (B2R x / B2R y) <= big -> is_finite (Bdiv mode_NE x y) = true /\ B2R (Bdiv mode_NE x y) = rnd (B2R x / B2R y).
Proof. intros Fx Ny B. pose proof (rnd_in (B2R x / B2R y) (- big) big big) as R. apply Rabs_le_inv in B. destruct R as [_ R]; try lra; [rewrite big_is; lra|]. pose proof (Bdiv_correct prec emax _ _ mode_NE x y Ny) as A. cbn [round_mode] in A. rewrite Rlt_bool_true in A by exact R. rewrite Fx in A. split; apply A. Qed.
Lemma sqrt_v (x : fl) : is_finite x = true -> 0 <= B2R x -> is_finite (Bsqrt mode_NE x) = true /\ B2R (Bsqrt mode_NE x) = rnd (sqrt (B2R x)).
Proof.
  intros F P. destruct (Bsqrt_correct prec emax _ _ mode_NE x) as (V & G & _). split; [|exact V]. rewrite G. destruct x as [s|s| |s m e B]; try discriminate F; [reflexivity|]. destruct s; [|reflexivity].
  exfalso. cbn [B2R] in P. assert (F2R (Float radix2 (cond_Zopp true (Z.pos m)) e) < 0) by (apply F2R_lt_0; reflexivity). lra.
Qed.
Lemma add_r x y a b c d M lo hi : rng x a b -> rng y c d -> - M <= a + c -> b + d <= M -> 1 <= M <= big -> lo <= a + c - 2e-7 * M -> b + d + 2e-7 * M <= hi -> rng (Bplus mode_NE x y) lo hi.
Proof. intros [F1 B1] [F2 B2] H1 H2 HM Hl Hh. destruct (add_v x y F1 F2) as [F V]; [apply Rabs_le; lra|]. split; [exact F|]. rewrite V. destruct (rnd_in (B2R x + B2R y) (a + c) (b + d) M) as [R _]; lra. Qed.
Lemma sub_r x y a b c d M lo hi : rng x a b -> rng y c d -> - M <= a - d -> b - c <= M -> 1 <= M <= big -> lo <= a - d - 2e-7 * M -> b - c + 2e-7 * M <= hi -> rng (Bminus mode_NE x y) lo hi.
Proof. intros [F1 B1] [F2 B2] H1 H2 HM Hl Hh. destruct (sub_v x y F1 F2) as [F V]; [apply Rabs_le; lra|]. split; [exact F|]. rewrite V. destruct (rnd_in (B2R x - B2R y) (a - d) (b - c) M) as [R _]; lra. Qed.
Lemma mul_r x y a b M lo hi : is_finite x = true -> is_finite y = true -> a <= B2R x * B2R y <= b -> - M <= a -> b <= M -> 1 <= M <= big -> lo <= a - 2e-7 * M -> b + 2e-7 * M <= hi -> rng (Bmult mode_NE x y) lo hi.
Proof. intros F1 F2 B H1 H2 HM Hl Hh. destruct (mul_v x y F1 F2) as [F V]; [apply Rabs_le; lra|]. split; [exact F|]. rewrite V. destruct (rnd_in (B2R x * B2R y) a b M) as [R _]; lra. Qed.
Lemma div_r x y a b M lo hi : is_finite x = true -> B2R y <> 0 -> a <= B2R x / B2R y <= b -> - M <= a -> b <= M -> 1 <= M <= big -> lo <= a - 2e-7 * M -> b + 2e-7 * M <= hi -> rng (Bdiv mode_NE x y) lo hi.
Proof. intros F1 F2 B H1 H2 HM Hl Hh. destruct (div_v x y F1 F2) as [F V]; [apply Rabs_le; lra|]. split; [exact F|]. rewrite V. destruct (rnd_in (B2R x / B2R y) a b M) as [R _]; lra. Qed.

(* literals to a millionth; the library: nothing but ranges, and the square *)
Definition lits_near : Prop := forall q, Q2R q = 0 \/ 0.001 <= Q2R q <= 400 -> is_finite (lit q) = true /\ Rabs (B2R (lit q) - Q2R q) <= 1e-6 * Q2R q.
Record lab_libm : Prop := {
  hypot_r : forall x y, is_finite x = true -> is_finite y = true -> Rabs (B2R x) <= 8192 -> Rabs (B2R y) <= 8192 -> rng (l_hypot L x y) 0 32768;
  powi7_r : forall x, rng x 0 65536 -> rng (l_powi L x 7) 0 (bpow radix2 115) /\ (1 <= B2R x -> 1 <= B2R (l_powi L x 7));
  powi2_r : powi_two prec emax L;
  hue_r : forall y x, is_finite y = true -> is_finite x = true -> rng (l_degrees L (l_atan2 L y x)) (-200) 200;
  radians_r : forall x, rng x (-9000) 9000 -> is_finite (l_radians L x) = true;
  sin_r : forall x, is_finite x = true -> rng (l_sin L x) (-1) 1;
  cos_r : forall x, is_finite x = true -> rng (l_cos L x) (-1) 1;
  exp_r : forall x, is_finite x = true -> B2R x <= 0 -> rng (l_exp L x) 0 1;
  sin_odd : odd prec emax (l_sin L);
  radians_odd : odd prec emax (l_radians L) }.
Context (LN : lits_near) (LL : lab_libm).

Lemma lv q r : Q2R q = r -> r = 0 \/ 0.001 <= r <= 400 -> rng (lit q) (r - 1e-6 * r) (r + 1e-6 * r).
Proof. intros <- H. destruct (LN q H) as [F A]. split; [exact F|]. apply Rabs_le_inv in A. lra. Qed.
Lemma lit_zero : zerof prec emax (lit 0.0%Q) = true.
Proof. destruct (lv 0.0%Q 0 ltac:(lra) ltac:(left; reflexivity)) as [F B]. apply zerof_R; [exact F|lra]. Qed.

Lemma z_minus (x : fl) : is_finite x = true -> zerof prec emax (Bminus mode_NE x x) = true.
Proof. intro F. destruct (sub_v x x F F) as [G V]; [rewrite Rminus_eq_0, Rabs_R0, big_is; lra|]. rewrite Rminus_eq_0, round_0 in V by typeclasses eauto. apply zerof_R; assumption. Qed.
Lemma z_div (z y : fl) a b : zerof prec emax z = true -> rng y a b -> 0 < a -> zerof prec emax (Bdiv mode_NE z y) = true.
Proof. intros Z [F B] A. destruct z; try discriminate Z. destruct y; try discriminate F; [cbn [B2R] in B; lra|reflexivity]. Qed.
Lemma z_mul (r z : fl) : is_finite r = true -> zerof prec emax z = true -> zerof prec emax (Bmult mode_NE r z) = true.
Proof. intros F Z. destruct z; try discriminate Z. destruct r; try discriminate F; reflexivity. Qed.
Lemma z_odd f z : odd prec emax f -> zerof prec emax z = true -> zerof prec emax (f z) = true.
Proof. intros [_ O] Z. destruct z; try discriminate Z. apply O. Qed.
Lemma z_sqsum (x y z r : fl) : zerof prec emax x = true -> zerof prec emax y = true -> zerof prec emax z = true -> is_finite r = true -> @sqsum _ ops x y z r = B754_zero false.
Proof.
  intros X Y W F. unfold sqsum, sqr. cbn [rsqrt radd rmul b_ops]. destruct x as [s1| | |]; try discriminate X. destruct y as [s2| | |]; try discriminate Y. destruct z as [s3| | |]; try discriminate W.
  destruct s1, s2, s3; destruct r as [s4| | |s4 m e B]; try discriminate F; destruct s4; reflexivity.
Qed.

Lemma ratio x : rng x 0 65536 -> rng (Bsqrt mode_NE (Bdiv mode_NE (l_powi L x 7) (Bplus mode_NE (l_powi L x 7) (l_powi L (lit 25.0%Q) 7)))) 0 1.
Proof.
  intro X. destruct (powi7_r LL x X) as [[F1 B1] _]. destruct (lv 25.0%Q 25 ltac:(lra) ltac:(right; lra)) as [F0 B0]. destruct (powi7_r LL (lit 25.0%Q) ltac:(split; [exact F0|lra])) as [[F2 B2] G]. specialize (G ltac:(lra)).
  set (p := l_powi L x 7) in *. set (q := l_powi L (lit 25.0%Q) 7) in *. change (bpow radix2 115) with 41538374868278621028243970633760768 in *.
  destruct (add_v p q F1 F2) as [F3 V3]; [rewrite big_is; apply Rabs_le; lra|]. set (t := Bplus mode_NE p q) in *.
  assert (T1 : 1 <= B2R t) by (rewrite V3; apply (rnd_ge 1); [apply two_prec; lia|lra]).
  assert (T2 : B2R p <= B2R t). { rewrite V3. rewrite <- (round_generic radix2 fexp ZnearestE (B2R p)) at 1 by apply generic_format_B2R. apply round_le; try typeclasses eauto. lra. }
  assert (D : 0 <= B2R p / B2R t <= 1). { split; [apply Rmult_le_pos; [lra|apply Rlt_le, Rinv_0_lt_compat; lra]|]. apply (Rmult_le_reg_r (B2R t)); [lra|]. unfold Rdiv. rewrite Rmult_assoc, Rinv_l by lra. lra. }
  destruct (div_v p t F1 ltac:(lra)) as [F4 V4]; [rewrite big_is; apply Rabs_le; lra|]. set (w := Bdiv mode_NE p t) in *.
  assert (W : 0 <= B2R w <= 1) by (rewrite V4; split; [apply (rnd_ge 0); [apply two_prec; lia|lra]|apply (rnd_le 1); [apply two_prec; lia|lra]]).
  destruct (sqrt_v w F4 ltac:(lra)) as [F5 V5]. split; [exact F5|]. rewrite V5. split; [apply (rnd_ge 0); [apply two_prec; lia|apply sqrt_pos]|apply (rnd_le 1); [apply two_prec; lia|]]. rewrite <- sqrt_1. apply sqrt_le_1_alt. lra.
Qed.
Lemma half x a b : rng x a b -> 0 <= a -> a <= b <= 100000 -> rng (Bdiv mode_NE x (lit 2.0%Q)) 0 (b / 2 + 1).
Proof.
  intros [F B] A1 A2. destruct (lv 2.0%Q 2 ltac:(lra) ltac:(right; lra)) as [F2 B2]. assert (D : 0 <= B2R x / B2R (lit 2.0%Q) <= b / 2 + 0.5). { split; [apply Rmult_le_pos; [lra|apply Rlt_le, Rinv_0_lt_compat; lra]|]. apply (Rmult_le_reg_r (B2R (lit 2.0%Q))); [lra|]. unfold Rdiv at 1. rewrite Rmult_assoc, Rinv_l by lra. nra. }
  destruct (div_v x (lit 2.0%Q) F ltac:(lra)) as [G V]; [rewrite big_is; apply Rabs_le; lra|]. split; [exact G|]. rewrite V. split; [apply (rnd_ge 0); [apply two_prec; lia|lra]|]. destruct (rnd_in (B2R x / B2R (lit 2.0%Q)) 0 (b / 2 + 0.5) 100001) as [R _]; try lra. rewrite big_is. lra.
Qed.
Lemma kfac_r Cs : rng Cs 0 70000 -> rng (@kfac _ ops Cs) 0.99 1.51.
Proof.
  intro H. unfold kfac. cbn [radd rmul rsub rsqrt rdiv rpowi rlit b_ops]. pose proof (half Cs 0 70000 H ltac:(lra) ltac:(lra)) as Hh. assert (X : rng (Bdiv mode_NE Cs (lit 2.0%Q)) 0 65536) by (apply (rng_w _ _ _ _ _ Hh); lra).
  pose proof (ratio _ X) as R. set (w := Bsqrt mode_NE _) in *. pose proof (lv 1.0%Q 1 ltac:(lra) ltac:(right; lra)) as L1. pose proof (lv 0.5%Q 0.5 ltac:(lra) ltac:(right; lra)) as [L2 L3].
  assert (S : rng (Bminus mode_NE (lit 1.0%Q) w) (-0.00001) 1.00001) by (apply (sub_r _ _ _ _ _ _ 2 _ _ L1 R); try rewrite big_is; lra). set (z := Bminus mode_NE (lit 1.0%Q) w) in *. destruct S as [S1 S2].
  assert (M : rng (Bmult mode_NE (lit 0.5%Q) z) (-0.0001) 0.5001) by (apply (mul_r _ _ (-0.00002) 0.50002 1 _ _ L2 S1); try rewrite big_is; nra).
  apply (add_r _ _ _ _ _ _ 2 _ _ L1 M); try rewrite big_is; lra.
Qed.

Lemma mul_nn x y M : is_finite x = true -> is_finite y = true -> 0 <= B2R x -> 0 <= B2R y -> B2R x * B2R y <= M -> 1 <= M <= 10 ^ 20 -> rng (Bmult mode_NE x y) 0 (1.1 * M).
Proof.
  intros Fx Fy Px Py B HM. assert (N : 0 <= B2R x * B2R y) by (apply Rmult_le_pos; assumption). destruct (mul_v x y Fx Fy) as [F V]; [rewrite big_is; apply Rabs_le; lra|]. split; [exact F|]. rewrite V. split; [apply (rnd_ge 0); [apply two_prec; lia|exact N]|].
  destruct (rnd_in (B2R x * B2R y) 0 M M) as [R _]; try lra. rewrite big_is. lra.
Qed.
Lemma div_nn x y M : is_finite x = true -> 0 <= B2R x -> 1 <= B2R y -> B2R x <= M -> 1 <= M <= 10 ^ 20 -> rng (Bdiv mode_NE x y) 0 (1.1 * M).
Proof.
  intros Fx Px Py B HM. assert (I : 0 < / B2R y <= 1). { split; [apply Rinv_0_lt_compat; lra|]. rewrite <- Rinv_1. apply Rinv_le_contravar; lra. } assert (N : 0 <= B2R x / B2R y <= M) by (unfold Rdiv; split; nra). destruct (div_v x y Fx ltac:(lra)) as [F V]; [rewrite big_is; apply Rabs_le; lra|]. split; [exact F|]. rewrite V. split; [apply (rnd_ge 0); [apply two_prec; lia|apply N]|].
  destruct (rnd_in (B2R x / B2R y) 0 M M) as [R _]; try lra. rewrite big_is. lra.
Qed.
Lemma hue_range b p : is_finite b = true -> is_finite p = true -> rng (@de_hue _ ops b p) (-201) 400.
Proof.
  intros Fb Fp. unfold de_hue. cbn [rto_degrees ratan2 rlt radd rlit b_ops]. pose proof (hue_r LL b p Fb Fp) as H. destruct (Bltb _ _) eqn:E; [|apply (rng_w _ _ _ _ _ H); lra].
  pose proof (lv 360.0%Q 360 ltac:(lra) ltac:(right; lra)) as L1. pose proof (lv 0.0%Q 0 ltac:(lra) ltac:(left; lra)) as [F0 B0]. destruct H as [F H]. set (h := l_degrees L _) in *. apply ltb_true in E. destruct E as (_ & _ & E). rewrite !ev_fin in E by assumption.
  assert (H' : rng h (-200) 0) by (split; [exact F|lra]). apply (add_r _ _ _ _ _ _ 400 _ _ H' L1); try rewrite big_is; lra.
Qed.
Lemma halved x : rng x (-2000) 2000 -> rng (Bdiv mode_NE x (lit 2.0%Q)) (-1001) 1001.
Proof.
  intros [F B]. destruct (lv 2.0%Q 2 ltac:(lra) ltac:(right; lra)) as [F2 B2]. assert (I : 0.49 <= / B2R (lit 2.0%Q) <= 0.50001). { split; [replace 0.49 with (/ (100 / 49)) by lra|replace 0.50001 with (/ (100000 / 50001)) by lra]; apply Rinv_le_contravar; lra. }
  assert (A : Rabs (B2R x / B2R (lit 2.0%Q)) <= 2000 * 0.50001) by (unfold Rdiv; rewrite Rabs_mult; apply Rmult_le_compat; try apply Rabs_pos; apply Rabs_le; lra). apply Rabs_le_inv in A.
  apply (div_r x (lit 2.0%Q) (-1000.1) 1000.1 2000 _ _ F ltac:(lra)); try rewrite big_is; lra.
Qed.
Lemma hmean_range P ad s : rng s (-403) 801 -> rng (@hmean _ ops P ad s) (-1001) 1001.
Proof.
  intro H. unfold hmean. cbn [req rle rlt radd rsub rdiv rlit b_ops]. pose proof (lv 360.0%Q 360 ltac:(lra) ltac:(right; lra)) as L1. assert (H2 : rng s (-2000) 2000) by (apply (rng_w _ _ _ _ _ H); lra).
  assert (A : rng (Bplus mode_NE s (lit 360.0%Q)) (-2000) 2000) by (apply (add_r _ _ _ _ _ _ 1900 _ _ H L1); try rewrite big_is; lra). assert (S : rng (Bminus mode_NE s (lit 360.0%Q)) (-2000) 2000) by (apply (sub_r _ _ _ _ _ _ 1900 _ _ H L1); try rewrite big_is; lra).
  destruct (Beqb _ _); [apply (rng_w _ _ _ _ _ H); lra|]. destruct (Bleb _ _); [|destruct (Bltb _ _)]; apply halved; assumption.
Qed.
Lemma cosine q r x : Q2R q = r -> 0.001 <= r <= 1 -> rng x (-9000) 9000 -> rng (Bmult mode_NE (lit q) (l_cos L (l_radians L x))) (- r - 0.00001) (r + 0.00001).
Proof.
  intros E Hr [F B]. destruct (cos_r LL _ (radians_r LL x ltac:(split; [exact F|lra]))) as [F2 B2]. set (w := l_cos L _) in *. destruct (lv q r E ltac:(right; lra)) as [F1 B1].
  apply (mul_r _ _ (- r - 0.000002) (r + 0.000002) 2 _ _ F1 F2); try rewrite big_is; try lra. split; nra.
Qed.
Lemma huepoly_range hb : rng hb (-1001) 1001 -> rng (@huepoly _ ops hb) 0.069 2.
Proof.
  intro H. unfold huepoly. cbn [radd rsub rmul rcos rto_radians rlit b_ops].
  pose proof (lv 30.0%Q 30 ltac:(lra) ltac:(right; lra)) as L30. pose proof (lv 6.0%Q 6 ltac:(lra) ltac:(right; lra)) as L6. pose proof (lv 63.0%Q 63 ltac:(lra) ltac:(right; lra)) as L63. pose proof (lv 1.0%Q 1 ltac:(lra) ltac:(right; lra)) as L1.
  assert (A1 : rng (Bminus mode_NE hb (lit 30.0%Q)) (-9000) 9000) by (apply (sub_r _ _ _ _ _ _ 2000 _ _ H L30); try rewrite big_is; lra).
  assert (M : forall q r, Q2R q = r -> 1 <= r <= 4 -> rng (Bmult mode_NE (lit q) hb) (-4200) 4200).
  { intros q r E Hr. destruct (lv q r E ltac:(right; lra)) as [F1 B1]. destruct H as [F B]. assert (A : Rabs (B2R (lit q) * B2R hb) <= 4.1 * 1001) by (rewrite Rabs_mult; apply Rmult_le_compat; try apply Rabs_pos; apply Rabs_le; lra). apply Rabs_le_inv in A. apply (mul_r _ _ (-4150) 4150 4150 _ _ F1 F); try rewrite big_is; lra. }
  assert (A2 : rng (Bmult mode_NE (lit 2.0%Q) hb) (-9000) 9000) by (apply (rng_w _ _ _ _ _ (M 2.0%Q 2 ltac:(lra) ltac:(lra))); lra).
  assert (A3 : rng (Bplus mode_NE (Bmult mode_NE (lit 3.0%Q) hb) (lit 6.0%Q)) (-9000) 9000) by (apply (add_r _ _ _ _ _ _ 5000 _ _ (M 3.0%Q 3 ltac:(lra) ltac:(lra)) L6); try rewrite big_is; lra).
  assert (A4 : rng (Bminus mode_NE (Bmult mode_NE (lit 4.0%Q) hb) (lit 63.0%Q)) (-9000) 9000) by (apply (sub_r _ _ _ _ _ _ 5000 _ _ (M 4.0%Q 4 ltac:(lra) ltac:(lra)) L63); try rewrite big_is; lra).
  pose proof (cosine 0.17%Q 0.17 _ ltac:(lra) ltac:(lra) A1) as C1. pose proof (cosine 0.24%Q 0.24 _ ltac:(lra) ltac:(lra) A2) as C2. pose proof (cosine 0.32%Q 0.32 _ ltac:(lra) ltac:(lra) A3) as C3. pose proof (cosine 0.20%Q 0.20 _ ltac:(lra) ltac:(lra) A4) as C4.
  assert (S1 : rng (Bminus mode_NE (lit 1.0%Q) (Bmult mode_NE (lit 0.17%Q) (l_cos L (l_radians L (Bminus mode_NE hb (lit 30.0%Q)))))) 0.82998 1.17002) by (apply (sub_r _ _ _ _ _ _ 2 _ _ L1 C1); try rewrite big_is; lra).
  assert (S2 := add_r _ _ _ _ _ _ 2 0.58996 1.41004 S1 C2 ltac:(lra) ltac:(lra) ltac:(rewrite big_is; lra) ltac:(lra) ltac:(lra)).
  assert (S3 := add_r _ _ _ _ _ _ 2 0.26994 1.73006 S2 C3 ltac:(lra) ltac:(lra) ltac:(rewrite big_is; lra) ltac:(lra) ltac:(lra)).
  exact (sub_r _ _ _ _ _ _ 2 0.069 2 S3 C4 ltac:(lra) ltac:(lra) ltac:(rewrite big_is; lra) ltac:(lra) ltac:(lra)).
Qed.

Lemma sl_range Ls : rng Ls (-8200) 8200 -> rng (@sl _ ops Ls) 0.9 (10 ^ 10).
Proof.
  intros [F B]. unfold sl. cbn [radd rsub rmul rdiv rsqrt rpowi rlit b_ops]. rewrite (powi2_r LL).
  destruct (lv 2.0%Q 2 ltac:(lra) ltac:(right; lra)) as [F2 B2]. pose proof (lv 50.0%Q 50 ltac:(lra) ltac:(right; lra)) as L50. pose proof (lv 20.0%Q 20 ltac:(lra) ltac:(right; lra)) as L20. pose proof (lv 1.0%Q 1 ltac:(lra) ltac:(right; lra)) as L1. destruct (lv 0.015%Q 0.015 ltac:(lra) ltac:(right; lra)) as [F15 B15].
  assert (I : 0 < / B2R (lit 2.0%Q) <= 1). { split; [apply Rinv_0_lt_compat; lra|]. rewrite <- Rinv_1. apply Rinv_le_contravar; lra. }
  assert (A : Rabs (B2R Ls / B2R (lit 2.0%Q)) <= 8200 * 1) by (unfold Rdiv; rewrite Rabs_mult; apply Rmult_le_compat; try apply Rabs_pos; apply Rabs_le; lra). apply Rabs_le_inv in A.
  assert (H : rng (Bdiv mode_NE Ls (lit 2.0%Q)) (-8300) 8300) by (apply (div_r Ls (lit 2.0%Q) (-8200) 8200 8200 _ _ F ltac:(lra)); try rewrite big_is; lra).
  assert (D : rng (Bminus mode_NE (Bdiv mode_NE Ls (lit 2.0%Q)) (lit 50.0%Q)) (-8400) 8400) by (apply (sub_r _ _ _ _ _ _ 8390 _ _ H L50); try rewrite big_is; lra). set (d := Bminus mode_NE _ (lit 50.0%Q)) in *. clearbody d. clear H A.
  destruct D as [Fd Bd]. assert (SQ : 0 <= B2R d * B2R d <= 10 ^ 8) by (split; nra). destruct (mul_v d d Fd Fd) as [Fp Vp]; [rewrite big_is; apply Rabs_le; lra|].
  assert (P : rng (Bmult mode_NE d d) 0 (2 * 10 ^ 8)). { split; [exact Fp|]. rewrite Vp. split; [apply (rnd_ge 0); [apply two_prec; lia|lra]|]. destruct (rnd_in (B2R d * B2R d) 0 (10 ^ 8) (10 ^ 8)) as [R _]; try lra. rewrite big_is. lra. }
  set (p := Bmult mode_NE d d) in *. clearbody p. clear Vp SQ. destruct P as [_ Bp].
  assert (N : rng (Bmult mode_NE (lit 0.015%Q) p) 0 (1.1 * 10 ^ 7)) by (apply mul_nn; try assumption; try lra; nra). destruct N as [Fn Bn].
  destruct L20 as [F20 B20]. destruct (add_v (lit 20.0%Q) p F20 Fp) as [Fa Va]; [rewrite big_is; apply Rabs_le; lra|]. assert (G1 : 1 <= B2R (Bplus mode_NE (lit 20.0%Q) p)) by (rewrite Va; apply (rnd_ge 1); [apply two_prec; lia|lra]).
  destruct (sqrt_v _ Fa ltac:(lra)) as [Fs Vs]. assert (G2 : 1 <= B2R (Bsqrt mode_NE (Bplus mode_NE (lit 20.0%Q) p))). { rewrite Vs. apply (rnd_ge 1); [apply two_prec; lia|]. rewrite <- sqrt_1. apply sqrt_le_1_alt. exact G1. }
  pose proof (div_nn _ (Bsqrt mode_NE (Bplus mode_NE (lit 20.0%Q) p)) (1.1 * 10 ^ 7) Fn ltac:(lra) G2 ltac:(lra) ltac:(lra)) as [Fq Bq]. set (q := Bdiv mode_NE _ (Bsqrt mode_NE _)) in *.
  destruct L1 as [F1 B1]. destruct (add_v (lit 1.0%Q) q F1 Fq) as [Fe Ve]; [rewrite big_is; apply Rabs_le; lra|]. split; [exact Fe|]. rewrite Ve. split.
  - apply Rle_trans with (rnd (B2R (lit 1.0%Q))); [|apply round_le; try typeclasses eauto; lra]. rewrite round_generic; try typeclasses eauto; [lra|apply generic_format_B2R].
  - destruct (rnd_in (B2R (lit 1.0%Q) + B2R q) 0 (10 ^ 9) (10 ^ 9)) as [R _]; try lra. rewrite big_is. lra.
Qed.
Lemma scaled_one x a b : rng x a b -> 0.5 <= a -> b <= 10 ^ 10 -> rng (Bmult mode_NE (lit 1.0%Q) x) 0.4 (10 ^ 11).
Proof.
  intros [F B] A1 A2. destruct (lv 1.0%Q 1 ltac:(lra) ltac:(right; lra)) as [F1 B1]. assert (P : 0.499 <= B2R (lit 1.0%Q) * B2R x <= 2 * 10 ^ 10) by (split; nra). destruct (mul_v _ _ F1 F) as [G V]; [rewrite big_is; apply Rabs_le; lra|]. split; [exact G|]. rewrite V. split.
  - pose proof (rnd_any prec emax (B2R (lit 1.0%Q) * B2R x)) as R. destruct u_le as [U0 U]. destruct eta_le24 as [T0 T]. rewrite (Rabs_pos_eq (B2R (lit 1.0%Q) * B2R x)) in R by lra. apply Rabs_le_inv in R. set (t := B2R (lit 1.0%Q) * B2R x) in *.
    assert (u * t <= / 16777216 * t) by (apply Rmult_le_compat_r; lra). lra.
  - destruct (rnd_in (B2R (lit 1.0%Q) * B2R x) 0 (2 * 10 ^ 10) (2 * 10 ^ 10)) as [R _]; try lra. rewrite big_is. lra.
Qed.
Lemma rt_finite Cs hb : rng Cs 0 70000 -> rng hb (-1001) 1001 -> is_finite (@rt _ ops Cs hb) = true.
Proof.
  intros HC H. unfold rt, sqr. cbn [radd rsub rmul rdiv rneg rsqrt rsin rexp rto_radians rpowi rlit b_ops]. pose proof (half Cs 0 70000 HC ltac:(lra) ltac:(lra)) as Hh. assert (X : rng (Bdiv mode_NE Cs (lit 2.0%Q)) 0 65536) by (apply (rng_w _ _ _ _ _ Hh); lra).
  pose proof (ratio _ X) as [FR BR]. set (w := Bsqrt mode_NE _) in *. clearbody w. pose proof (lv 275.0%Q 275 ltac:(lra) ltac:(right; lra)) as L275. destruct (lv 25.0%Q 25 ltac:(lra) ltac:(right; lra)) as [F25 B25]. destruct (lv 30.0%Q 30 ltac:(lra) ltac:(right; lra)) as [F30 B30]. destruct (lv 2.0%Q 2 ltac:(lra) ltac:(right; lra)) as [F2 B2].
  assert (D : rng (Bminus mode_NE hb (lit 275.0%Q)) (-1300) 1300) by (apply (sub_r _ _ _ _ _ _ 1290 _ _ H L275); try rewrite big_is; lra). set (d := Bminus mode_NE hb _) in *. clearbody d. destruct D as [Fd Bd].
  assert (I : 0 < / B2R (lit 25.0%Q) <= 1). { split; [apply Rinv_0_lt_compat; lra|]. rewrite <- Rinv_1. apply Rinv_le_contravar; lra. }
  assert (A : Rabs (B2R d / B2R (lit 25.0%Q)) <= 1300 * 1) by (unfold Rdiv; rewrite Rabs_mult; apply Rmult_le_compat; try apply Rabs_pos; apply Rabs_le; lra). apply Rabs_le_inv in A.
  assert (E : rng (Bdiv mode_NE d (lit 25.0%Q)) (-1400) 1400) by (apply (div_r d (lit 25.0%Q) (-1300) 1300 1300 _ _ Fd ltac:(lra)); try rewrite big_is; lra). set (e := Bdiv mode_NE d _) in *. clearbody e. destruct E as [Fe Be].
  assert (SQ : 0 <= B2R e * B2R e <= 10 ^ 7) by (split; nra). destruct (mul_v e e Fe Fe) as [Fp Vp]; [rewrite big_is; apply Rabs_le; lra|]. assert (PP : 0 <= B2R (Bmult mode_NE e e)) by (rewrite Vp; apply (rnd_ge 0); [apply two_prec; lia|lra]).
  set (p := Bmult mode_NE e e) in *. clearbody p. destruct (exp_r LL (Bopp p) ltac:(rewrite is_finite_Bopp; exact Fp) ltac:(rewrite B2R_Bopp; lra)) as [Fx Bx]. set (x := l_exp L (Bopp p)) in *. clearbody x.
  assert (T1 : rng (Bmult mode_NE (lit 30.0%Q) x) (-1) 31) by (apply (mul_r _ _ 0 30.1 31 _ _ F30 Fx); try rewrite big_is; try lra; nra). destruct T1 as [G1 C1]. set (t := Bmult mode_NE (lit 30.0%Q) x) in *. clearbody t.
  assert (T2 : rng (Bmult mode_NE (lit 2.0%Q) t) (-9000) 9000) by (apply (mul_r _ _ (-100) 100 100 _ _ F2 G1); try rewrite big_is; try lra; nra).
  destruct (sin_r LL _ (radians_r LL _ T2)) as [G2 C2]. set (v := l_sin L _) in *. clearbody v.
  assert (T3 : rng (Bmult mode_NE (lit 2.0%Q) w) (-1) 3) by (apply (mul_r _ _ 0 2.1 3 _ _ F2 FR); try rewrite big_is; try lra; nra). destruct T3 as [G3 C3].
  apply (mul_v (Bopp v)); [rewrite is_finite_Bopp; exact G2|exact G3|]. rewrite B2R_Bopp, Rabs_mult, Rabs_Ropp. apply Rle_trans with (1 * 3); [|rewrite big_is; lra]. apply Rmult_le_compat; try apply Rabs_pos; apply Rabs_le; lra.
Qed.

(* a colour is at distance zero from itself *)
Lemma self_2000 (c : lab fl) : is_finite (lab_L c) = true -> is_finite (lab_a c) = true -> is_finite (lab_b c) = true -> Rabs (B2R (lab_L c)) <= 4096 -> Rabs (B2R (lab_a c)) <= 4096 -> Rabs (B2R (lab_b c)) <= 4096 ->
  @delta_E_2000 _ ops c c = B754_zero false.
Proof.
  destruct c as [l a b]. cbn [lab_L lab_a lab_b]. intros Fl Fa Fb Bl Ba Bb. rewrite parts. cbv zeta.
  pose proof (hypot_r LL a b Fa Fb ltac:(lra) ltac:(lra)) as H0. assert (H1 : rng (Bplus mode_NE (l_hypot L a b) (l_hypot L a b)) 0 70000).
  { destruct H0 as [F B]. destruct (add_v _ _ F F) as [G V]; [rewrite big_is; apply Rabs_le; lra|]. split; [exact G|]. rewrite V. split; [apply (rnd_ge 0); [apply two_prec; lia|lra]|]. destruct (rnd_in (B2R (l_hypot L a b) + B2R (l_hypot L a b)) 0 66000 66000) as [R _]; try lra. rewrite big_is. lra. }
  pose proof (kfac_r _ H1) as K. cbn [radd rhypot b_ops]. set (k := kfac _) in *. clearbody k. destruct K as [Fk Bk]. apply Rabs_le_inv in Bl, Ba.
  assert (KA : Rabs (B2R k * B2R a) <= 1.51 * 4096) by (rewrite Rabs_mult; apply Rmult_le_compat; try apply Rabs_pos; apply Rabs_le; lra). apply Rabs_le_inv in KA.
  assert (A : rng (Bmult mode_NE k a) (-8192) 8192) by (apply (mul_r _ _ (-7000) 7000 7000 _ _ Fk Fa); try rewrite big_is; lra). cbn [rmul b_ops]. set (p := Bmult mode_NE k a) in *. clearbody p. clear KA Fk Bk k H0 H1. destruct A as [Fp Bp].
  pose proof (hypot_r LL p b Fp Fb ltac:(apply Rabs_le; lra) ltac:(lra)) as HC. set (C := l_hypot L p b) in *. clearbody C. pose proof (hue_range b p Fb Fp) as HH. set (h := de_hue b p) in *. clearbody h. destruct HC as [FC BC].
  assert (CC : rng (Bplus mode_NE C C) 0 70000). { destruct (add_v _ _ FC FC) as [G V]; [rewrite big_is; apply Rabs_le; lra|]. split; [exact G|]. rewrite V. split; [apply (rnd_ge 0); [apply two_prec; lia|lra]|]. destruct (rnd_in (B2R C + B2R C) 0 66000 66000) as [R _]; try lra. rewrite big_is. lra. }
  assert (HS : rng (Bplus mode_NE h h) (-403) 801) by (apply (add_r _ _ _ _ _ _ 900 _ _ HH HH); try rewrite big_is; lra).
  assert (LS : rng (Bplus mode_NE l l) (-8200) 8200) by (assert (HL : rng l (-4096) 4096) by (split; [exact Fl|lra]); apply (add_r _ _ _ _ _ _ 8192 _ _ HL HL); try rewrite big_is; lra).
  pose proof (hmean_range (Bmult mode_NE C C) (Babs (Bminus mode_NE h h)) _ HS) as HB. cbn [radd rmul rsub rabs b_ops]. set (hb := hmean _ _ _) in *. clearbody hb.
  pose proof (half _ 0 70000 CC ltac:(lra) ltac:(lra)) as [Fc Bc]. pose proof (lv 1.0%Q 1 ltac:(lra) ltac:(right; lra)) as L1.
  unfold last_part. cbn [radd rmul rsub rdiv rsqrt rsin rto_radians rlit b_ops]. apply z_sqsum.
  - apply (z_div _ _ 0.4 (10 ^ 11)); [apply z_minus, Fl|apply (scaled_one _ _ _ (sl_range _ LS)); lra|lra].
  - set (cb := Bdiv mode_NE (Bplus mode_NE C C) (lit 2.0%Q)) in *. destruct (lv 0.045%Q 0.045 ltac:(lra) ltac:(right; lra)) as [F1 B1].
    assert (M : rng (Bmult mode_NE (lit 0.045%Q) cb) 0 (1.1 * 2000)) by (apply mul_nn; try assumption; try lra; nra). assert (S : rng (Bplus mode_NE (lit 1.0%Q) (Bmult mode_NE (lit 0.045%Q) cb)) 0.9 3000) by (apply (add_r _ _ _ _ _ _ 2300 _ _ L1 M); try rewrite big_is; lra).
    apply (z_div _ _ 0.4 (10 ^ 11)); [apply z_minus, FC|apply (scaled_one _ _ _ S); lra|lra].
  - set (cb := Bdiv mode_NE (Bplus mode_NE C C) (lit 2.0%Q)) in *. destruct (lv 0.015%Q 0.015 ltac:(lra) ltac:(right; lra)) as [F1 B1].
    assert (M : rng (Bmult mode_NE (lit 0.015%Q) cb) 0 (1.1 * 1000)) by (apply mul_nn; try assumption; try lra; nra). destruct M as [FM BM]. destruct (huepoly_range hb HB) as [FT BT].
    assert (M2 : rng (Bmult mode_NE (Bmult mode_NE (lit 0.015%Q) cb) (@huepoly _ ops hb)) 0 (1.1 * 3000)) by (apply mul_nn; try assumption; try lra; nra). assert (S : rng (Bplus mode_NE (lit 1.0%Q) (Bmult mode_NE (Bmult mode_NE (lit 0.015%Q) cb) (@huepoly _ ops hb))) 0.9 5000) by (apply (add_r _ _ _ _ _ _ 4000 _ _ L1 M2); try rewrite big_is; lra).
    apply (z_div _ _ 0.4 (10 ^ 11)); [|apply (scaled_one _ _ _ S); lra|lra].
    destruct (mul_nn C C (2 * 10 ^ 9) FC FC ltac:(lra) ltac:(lra) ltac:(nra) ltac:(lra)) as [FP BP]. set (P := Bmult mode_NE C C) in *. destruct (sqrt_v P FP ltac:(lra)) as [Fs Vs]. destruct (lv 2.0%Q 2 ltac:(lra) ltac:(right; lra)) as [F2 B2].
    assert (SR : 0 <= sqrt (B2R P) <= 10 ^ 6). { split; [apply sqrt_pos|]. replace (10 ^ 6) with (sqrt (10 ^ 12)) by (replace (10 ^ 12) with (10 ^ 6 * 10 ^ 6) by ring; apply sqrt_square; lra). apply sqrt_le_1_alt. lra. }
    assert (SB : 0 <= B2R (Bsqrt mode_NE P) <= 2 * 10 ^ 6). { rewrite Vs. split; [apply (rnd_ge 0); [apply two_prec; lia|lra]|]. destruct (rnd_in (sqrt (B2R P)) 0 (10 ^ 6) (10 ^ 6)) as [R _]; try lra. rewrite big_is. lra. }
    apply z_mul; [apply mul_v; [exact F2|exact Fs|rewrite big_is; apply Rabs_le; split; nra]|].
    apply z_odd; [apply (sin_odd LL)|]. apply z_odd; [apply (radians_odd LL)|].
    assert (HD : zerof prec emax (@hdiff _ ops P (Bminus mode_NE h h)) = true).
    { unfold hdiff. cbn [req rle rlt radd rsub rabs rlit b_ops]. destruct (Beqb _ _); [apply lit_zero|]. pose proof (z_minus h (proj1 HH)) as Z. destruct (lv 180.0%Q 180 ltac:(lra) ltac:(right; lra)) as [F180 B180].
      rewrite leb_intro; [exact Z|rewrite is_nan_Babs; destruct (Bminus mode_NE h h); try discriminate Z; reflexivity|destruct (lit 180.0%Q); try discriminate F180; reflexivity|]. rewrite (ev_fin _ _ _ F180). destruct (Bminus mode_NE h h); try discriminate Z. cbn [Babs ev B2R]. lra. }
    apply (z_div _ _ (2 - 1e-6 * 2) (2 + 1e-6 * 2) HD); [split; assumption|lra].
  - apply rt_finite; assumption.
Qed.

Lemma self_1976 (c : lab fl) : is_finite (lab_L c) = true -> is_finite (lab_a c) = true -> is_finite (lab_b c) = true -> @delta_E_1976 _ ops c c = B754_zero false.
Proof.
  intros F1 F2 F3. unfold delta_E_1976. cbn [rsqrt rpowi radd rsub b_ops]. rewrite !(powi2_r LL). pose proof (z_minus _ F1) as Z1. pose proof (z_minus _ F2) as Z2. pose proof (z_minus _ F3) as Z3.
  destruct (Bminus mode_NE (lab_L c) _) as [s1| | |]; try discriminate Z1. destruct (Bminus mode_NE (lab_a c) _) as [s2| | |]; try discriminate Z2. destruct (Bminus mode_NE (lab_b c) _) as [s3| | |]; try discriminate Z3. destruct s1, s2, s3; reflexivity.
Qed.
End Rng.

(* ---- the 1976 distance is accurate ---- *)
Section Near.
Context (prec emax : Z) {Hp : Prec_gt_0 prec} {He : Prec_lt_emax prec emax} (P24 : (24 <= prec)%Z) (E128 : (128 <= emax)%Z).
Notation fl := (binary_float prec emax).
Notation fexp := (SpecFloat.fexp prec emax).
Notation rnd := (round radix2 fexp ZnearestE).
Notation u := (bpow radix2 (- prec)).
Notation eta := (bpow radix2 (2 - emax - prec)).
Context (L : libm fl) (lit : Q -> fl).
Notation ops := (b_ops prec emax L lit).
Definition far : R := bpow radix2 50.

Lemma square_near (x y : fl) : is_finite x = true -> is_finite y = true -> Rabs (B2R x) <= far -> Rabs (B2R y) <= far ->
  let d := B2R x - B2R y in let z := Bmult mode_NE (Bminus mode_NE x y) (Bminus mode_NE x y) in is_finite z = true /\ 0 <= B2R z <= 16 * (far * far) /\ Rabs (B2R z - d * d) <= 3.1 * u * (d * d) + eta.
Proof.
  intros Fx Fy Bx By d z. assert (FV : far = 1125899906842624) by reflexivity. apply Rabs_le_inv in Bx, By. assert (BD : Rabs d <= 2 * far) by (unfold d; apply Rabs_le; lra). destruct (u_le prec P24) as [U0 U]. destruct (eta_le24 prec emax P24 E128) as [T0 T].
  destruct (sub_v prec emax P24 E128 x y Fx Fy) as [F1 V1]; [rewrite big_is; unfold d in BD; lra|]. pose proof (rnd_diff prec emax x y) as R1. rewrite <- V1 in R1. fold d in R1. set (w := Bminus mode_NE x y) in *.
  assert (UD : u * Rabs d <= / 16777216 * Rabs d) by (apply Rmult_le_compat_r; [apply Rabs_pos|exact U]). pose proof (Rabs_pos d) as PD.
  assert (BW : Rabs (B2R w) <= 2.1 * far). { replace (B2R w) with (d + (B2R w - d)) by ring. eapply Rle_trans; [apply Rabs_triang|]. lra. }
  assert (SW : 0 <= B2R w * B2R w <= 2.1 * far * (2.1 * far)). { split; [apply Rle_0_sqr|]. rewrite <- (Rabs_pos_eq (B2R w * B2R w)) by apply Rle_0_sqr. rewrite Rabs_mult. apply Rmult_le_compat; try apply Rabs_pos; exact BW. }
  destruct (mul_v prec emax P24 E128 w w F1 F1) as [F2 V2]; [rewrite big_is; apply Rabs_le; rewrite FV in SW; lra|]. fold z in F2, V2. pose proof (rnd_any prec emax (B2R w * B2R w)) as R2. rewrite <- V2 in R2. rewrite (Rabs_pos_eq (B2R w * B2R w)) in R2 by apply SW.
  assert (UW : u * (B2R w * B2R w) <= / 16777216 * (B2R w * B2R w)) by (apply Rmult_le_compat_r; [apply SW|exact U]).
  split; [exact F2|]. split; [split; [rewrite V2; apply (rnd_ge prec emax 0); [apply (two_prec prec P24); lia|apply SW]|apply Rabs_le_inv in R2; rewrite FV in *; lra]|].
  assert (DD : Rabs d * Rabs d = d * d) by (rewrite <- Rabs_mult; apply Rabs_pos_eq, Rle_0_sqr). assert (PDD : 0 <= d * d) by apply Rle_0_sqr.
  assert (E1 : Rabs (B2R w * B2R w - d * d) <= 2.01 * u * (d * d)).
  { replace (B2R w * B2R w - d * d) with ((B2R w - d) * (B2R w - d + 2 * d)) by ring. rewrite Rabs_mult. apply Rle_trans with (u * Rabs d * (2.01 * Rabs d)); [|rewrite <- DD; lra]. apply Rmult_le_compat; try apply Rabs_pos; [exact R1|]. eapply Rle_trans; [apply Rabs_triang|]. rewrite Rabs_mult, (Rabs_pos_eq 2) by lra. lra. }
  assert (UDD : u * (d * d) <= / 16777216 * (d * d)) by (apply Rmult_le_compat_r; assumption).
  assert (E2 : u * (B2R w * B2R w) <= 1.01 * u * (d * d)). { apply Rabs_le_inv in E1. assert (B2R w * B2R w <= 1.01 * (d * d)) by lra. replace (1.01 * u * (d * d)) with (u * (1.01 * (d * d))) by ring. apply Rmult_le_compat_l; lra. }
  apply Rabs_le_inv in E1, R2. apply Rabs_le. lra.
Qed.
Lemma plus_near (x y : fl) a b e f c : is_finite x = true -> is_finite y = true -> 0 <= B2R x -> 0 <= B2R y -> B2R x + B2R y <= 100 * (far * far) -> 0 <= a -> 0 <= b -> 0 <= e -> 0 <= f -> 1 <= c <= 10 -> Rabs (B2R x - a) <= c * u * a + e -> Rabs (B2R y - b) <= c * u * b + f ->
  is_finite (Bplus mode_NE x y) = true /\ 0 <= B2R (Bplus mode_NE x y) <= 1.01 * (B2R x + B2R y) /\ Rabs (B2R (Bplus mode_NE x y) - (a + b)) <= (c + 1.1) * u * (a + b) + 1.01 * (e + f).
Proof.
  intros Fx Fy Px Py B Pa Pb Pe Pf Hc Hx Hy. assert (FV : far = 1125899906842624) by reflexivity. destruct (u_le prec P24) as [U0 U].
  destruct (add_v prec emax P24 E128 x y Fx Fy) as [F V]; [rewrite big_is; apply Rabs_le; rewrite FV in B; lra|]. pose proof (rnd_sum prec emax x y) as R. rewrite <- V in R. rewrite (Rabs_pos_eq (B2R x + B2R y)) in R by lra.
  assert (US : u * (B2R x + B2R y) <= / 16777216 * (B2R x + B2R y)) by (apply Rmult_le_compat_r; lra). split; [exact F|]. split; [split; [rewrite V; apply (rnd_ge prec emax 0); [apply (two_prec prec P24); lia|lra]|apply Rabs_le_inv in R; lra]|].
  assert (CA : c * u * a <= 10 * / 16777216 * a) by (apply Rmult_le_compat_r; [exact Pa|]; apply Rmult_le_compat; lra). assert (CB : c * u * b <= 10 * / 16777216 * b) by (apply Rmult_le_compat_r; [exact Pb|]; apply Rmult_le_compat; lra).
  apply Rabs_le_inv in Hx, Hy, R. assert (W : u * (B2R x + B2R y) <= u * (1.05 * (a + b) + (e + f))) by (apply Rmult_le_compat_l; lra). assert (UE : u * (e + f) <= / 16777216 * (e + f)) by (apply Rmult_le_compat_r; lra). assert (UA : 0 <= u * (a + b)) by (apply Rmult_le_pos; lra).
  apply Rabs_le. split; lra.
Qed.
Lemma root_near E W s : 0 <= E -> 0 <= W -> 0 < s -> Rabs (W - E * E) <= 5.31 * u * (E * E) + 4 * (s * s) -> Rabs (sqrt W - E) <= 2.7 * u * E + 2 * s.
Proof.
  intros PE PW Ps H. destruct (u_le prec P24) as [U0 U]. set (x := sqrt W). assert (X : x * x = W) by (apply sqrt_sqrt, PW). assert (PX : 0 <= x) by apply sqrt_pos. rewrite <- X in H. apply Rabs_le_inv in H. clear X. clearbody x.
  assert (UE : 0 <= u * (E * E)) by (apply Rmult_le_pos; [lra|apply Rmult_le_pos; exact PE]). assert (UE1 : 0 <= u * E) by (apply Rmult_le_pos; lra). apply Rabs_le. split; apply Rnot_lt_le; intro N.
  - assert (Y : 0 <= x < E - 2.7 * u * E - 2 * s) by lra. replace (E - 2.7 * u * E - 2 * s) with (E - 27 / 10 * u * E - 2 * s) in Y by lra. set (y := E - 27 / 10 * u * E) in *. assert (x * x <= (y - 2 * s) * (y - 2 * s)) by (apply Rmult_le_compat; lra). assert (y2 : y * y <= E * E - 5.35 * u * (E * E)).
    { replace (y * y) with (E * E - 54 / 10 * u * (E * E) + 729 / 100 * (u * (u * (E * E)))) by (unfold y; field). assert (u * (u * (E * E)) <= / 16777216 * (u * (E * E))) by (apply Rmult_le_compat_r; lra). lra. }
    assert (0 <= s * (y - 2 * s)) by (apply Rmult_le_pos; lra). nra.
  - assert (Y : E + 2.7 * u * E + 2 * s < x) by lra. replace (E + 2.7 * u * E + 2 * s) with (E + 27 / 10 * u * E + 2 * s) in Y by lra. set (y := E + 27 / 10 * u * E) in *. assert (PY : 0 <= y) by (unfold y; lra). assert ((y + 2 * s) * (y + 2 * s) < x * x) by (apply Rmult_le_0_lt_compat; lra). assert (y2 : E * E + 5.4 * u * (E * E) <= y * y).
    { replace (y * y) with (E * E + 54 / 10 * u * (E * E) + 729 / 100 * (u * E * (u * E))) by (unfold y; field). assert (0 <= u * E * (u * E)) by (apply Rmult_le_pos; exact UE1). lra. }
    assert (0 <= s * y) by (apply Rmult_le_pos; lra). nra.
Qed.
Definition within_far (c : lab fl) : Prop := is_finite (lab_L c) = true /\ is_finite (lab_a c) = true /\ is_finite (lab_b c) = true /\ Rabs (B2R (lab_L c)) <= far /\ Rabs (B2R (lab_a c)) <= far /\ Rabs (B2R (lab_b c)) <= far.
Definition distance (c d : lab fl) : R := sqrt ((B2R (lab_L c) - B2R (lab_L d)) * (B2R (lab_L c) - B2R (lab_L d)) + (B2R (lab_a c) - B2R (lab_a d)) * (B2R (lab_a c) - B2R (lab_a d)) + (B2R (lab_b c) - B2R (lab_b d)) * (B2R (lab_b c) - B2R (lab_b d))).
Lemma accurate c d s : powi_two prec emax L -> within_far c -> within_far d -> 0 < s <= 1 -> eta <= s * s ->
  is_finite (@delta_E_1976 _ ops c d) = true /\ Rabs (B2R (@delta_E_1976 _ ops c d) - distance c d) <= 4 * u * distance c d + 4 * s.
Proof.
  intros P (F1 & F2 & F3 & B1 & B2 & B3) (G1 & G2 & G3 & C1 & C2 & C3) Ps HS. unfold delta_E_1976. cbn [rsqrt rpowi radd rsub b_ops]. rewrite !P. destruct (u_le prec P24) as [U0 U]. destruct (eta_le24 prec emax P24 E128) as [T0 T].
  destruct (square_near _ _ F1 G1 B1 C1) as (H1 & Q1 & R1). destruct (square_near _ _ F2 G2 B2 C2) as (H2 & Q2 & R2). destruct (square_near _ _ F3 G3 B3 C3) as (H3 & Q3 & R3).
  set (s1 := Bmult mode_NE (Bminus mode_NE (lab_L c) (lab_L d)) _) in *. set (s2 := Bmult mode_NE (Bminus mode_NE (lab_a c) (lab_a d)) _) in *. set (s3 := Bmult mode_NE (Bminus mode_NE (lab_b c) (lab_b d)) _) in *. unfold distance.
  set (d1 := (B2R (lab_L c) - B2R (lab_L d)) * (B2R (lab_L c) - B2R (lab_L d))) in *. set (d2 := (B2R (lab_a c) - B2R (lab_a d)) * (B2R (lab_a c) - B2R (lab_a d))) in *. set (d3 := (B2R (lab_b c) - B2R (lab_b d)) * (B2R (lab_b c) - B2R (lab_b d))) in *.
  assert (D1 : 0 <= d1) by apply Rle_0_sqr. assert (D2 : 0 <= d2) by apply Rle_0_sqr. assert (D3 : 0 <= d3) by apply Rle_0_sqr. clearbody s1 s2 s3 d1 d2 d3. assert (FP : 0 <= far * far) by apply Rle_0_sqr.
  destruct (plus_near s1 s2 d1 d2 eta eta 3.1 H1 H2 ltac:(lra) ltac:(lra) ltac:(lra) D1 D2 ltac:(lra) ltac:(lra) ltac:(lra) R1 R2) as (K1 & W1 & N1).
  assert (U3 : 0 <= u * d3) by (apply Rmult_le_pos; lra).
  destruct (plus_near _ s3 (d1 + d2) d3 (1.01 * (eta + eta)) eta 4.2 K1 H3 ltac:(lra) ltac:(lra) ltac:(lra) ltac:(lra) D3 ltac:(lra) ltac:(lra) ltac:(lra) ltac:(lra) ltac:(lra)) as (K2 & W2 & N2).
  set (w := Bplus mode_NE (Bplus mode_NE s1 s2) s3) in *. clearbody w. set (e := sqrt (d1 + d2 + d3)). assert (PE : 0 <= e) by apply sqrt_pos. assert (EE : e * e = d1 + d2 + d3) by (apply sqrt_sqrt; lra). rewrite <- EE in N2. clearbody e.
  destruct (sqrt_v prec emax w K2 ltac:(lra)) as [K3 V3]. split; [exact K3|]. rewrite V3. pose proof (rnd_any prec emax (sqrt (B2R w))) as RR. rewrite (Rabs_pos_eq (sqrt (B2R w))) in RR by apply sqrt_pos.
  assert (UEE : 0 <= u * (e * e)) by (apply Rmult_le_pos; [lra|apply Rmult_le_pos; exact PE]).
  pose proof (root_near e (B2R w) s PE ltac:(lra) ltac:(lra) ltac:(lra)) as N. apply Rabs_le_inv in N, RR. assert (UR : u * sqrt (B2R w) <= u * (e + 2.7 * u * e + 2 * s)) by (apply Rmult_le_compat_l; lra).
  assert (u * (u * e) <= / 16777216 * (u * e)) by (apply Rmult_le_compat_r; [apply Rmult_le_pos; lra|exact U]). assert (u * s <= / 16777216 * s) by (apply Rmult_le_compat_r; lra). assert (s * s <= s) by nra. assert (0 <= u * e) by (apply Rmult_le_pos; lra).
  apply Rabs_le. split; lra.
Qed.
End Near.

(* ---- the two formats ---- *)
Lemma lit64 q : Q2R q = 0 \/ 0.001 <= Q2R q <= 400 -> is_finite (b_of_Q 53 1024 q) = true /\ Rabs (B2R (b_of_Q 53 1024 q) - Q2R q) <= 1e-9 * Q2R q.
Proof.
  intro H. destruct (b_of_Q_correct 53 1024 q) as (V & F & _); [destruct H as [->|H]; [rewrite round_0, Rabs_R0 by typeclasses eauto; apply bpow_gt_0|apply (rnd_below 53 1024 ltac:(lia) ltac:(lia)); pose proof (tiny_le 1024 ltac:(lia)); lra]|].
  split; [exact F|]. rewrite V. destruct H as [->|H]; [rewrite round_0 by typeclasses eauto; rewrite Rminus_0_r, Rabs_R0; lra|]. pose proof (rnd_rel 53 1024 (Q2R q) ltac:(pose proof (tiny_le 1024 ltac:(lia)); lra)) as R. unfold rel in R. change (bpow radix2 (- (53))) with (/ 9007199254740992) in R. lra.
Qed.
Lemma lits64 : lits_near 53 1024 (b_of_Q 53 1024).
Proof. intros q H. destruct (lit64 q H) as [F A]. split; [exact F|lra]. Qed.
Lemma lits32 : lits_near 24 128 (fun q => f64_to_f32 (b_of_Q 53 1024 q)).
Proof.
  intros q H. destruct (lit64 q H) as [F A]. set (x := b_of_Q 53 1024 q) in *. clearbody x. apply Rabs_le_inv in A. destruct H as [H|H].
  { rewrite H in *. assert (Z : B2R x = 0) by lra. pose proof (zerof_R 53 1024 x F Z) as ZX. destruct x; try discriminate ZX. split; [reflexivity|]. change (B2R (f64_to_f32 (B754_zero s))) with 0. rewrite Rminus_0_r, Rabs_R0. lra. }
  assert (N : is_nan x = false) by (destruct x; try discriminate F; reflexivity). destruct (conv_ev 53 1024 24 128 x ltac:(lia) N) as [N2 V]. rewrite (ev_fin 53 1024 x F) in V. assert (X : 0.0009 <= B2R x <= 500) by lra.
  pose proof (tiny_le 128 ltac:(lia)) as [T0 T]. pose proof (rnd_below 24 128 ltac:(lia) ltac:(lia) (B2R x) ltac:(lra)) as S. pose proof (rnd_rel 24 128 (B2R x) ltac:(lra)) as R2. rewrite sat_in in V by exact S. unfold f64_to_f32. set (y := b_conv 53 1024 24 128 x) in *.
  assert (FY : is_finite y = true). { destruct y as [s|s| |s m e H0]; try reflexivity; [|discriminate]. exfalso. unfold ev in V. rewrite <- V in S. destruct s; [rewrite Rabs_Ropp in S|]; rewrite Rabs_pos_eq in S by apply bpow_ge_0; lra. }
  split; [exact FY|]. rewrite (ev_fin 24 128 y FY) in V. rewrite V. unfold rel in R2. change (bpow radix2 (- (24))) with (/ 16777216) in R2. apply Rabs_le_inv in R2. apply Rabs_le. lra.
Qed.
Local Notation ops64 L := (f64_ops L).
Local Notation ops32 L := (f32_ops L).

(* the same bits in either order, whatever the colours *)
Theorem C106_symmetric_f32 (L : libm f32) (c d : lab f32) : powi_two 24 128 L -> odd 24 128 (l_sin L) -> odd 24 128 (l_radians L) ->
  @delta_E_1976 _ (ops32 L) c d = @delta_E_1976 _ (ops32 L) d c /\ @delta_E_2000 _ (ops32 L) c d = @delta_E_2000 _ (ops32 L) d c.
Proof.
  intros P S D. split; [apply symmetric_1976, P|]. destruct (lv 24 128 _ lits32 180.0%Q 180 ltac:(lra) ltac:(right; lra)) as [F B]. apply (symmetric_2000 24 128 L); [exact S|exact D|exact (lit_zero 24 128 _ lits32)|exact F|lra].
Qed.
Theorem C106_symmetric_f64 (L : libm f64) (c d : lab f64) : powi_two 53 1024 L -> odd 53 1024 (l_sin L) -> odd 53 1024 (l_radians L) ->
  @delta_E_1976 _ (ops64 L) c d = @delta_E_1976 _ (ops64 L) d c /\ @delta_E_2000 _ (ops64 L) c d = @delta_E_2000 _ (ops64 L) d c.
Proof.
  intros P S D. split; [apply symmetric_1976, P|]. destruct (lv 53 1024 _ lits64 180.0%Q 180 ltac:(lra) ltac:(right; lra)) as [F B]. apply (symmetric_2000 53 1024 L); [exact S|exact D|exact (lit_zero 53 1024 _ lits64)|exact F|lra].
Qed.
Definition usual {p e} (c : lab (binary_float p e)) : Prop := is_finite (lab_L c) = true /\ is_finite (lab_a c) = true /\ is_finite (lab_b c) = true /\ Rabs (B2R (lab_L c)) <= 4096 /\ Rabs (B2R (lab_a c)) <= 4096 /\ Rabs (B2R (lab_b c)) <= 4096.
(* a colour is at distance +0 from itself *)
Theorem C106_self_f32 (L : libm f32) (c : lab f32) : lab_libm 24 128 L -> usual c -> @delta_E_1976 _ (ops32 L) c c = B754_zero false /\ @delta_E_2000 _ (ops32 L) c c = B754_zero false.
Proof. intros LL (F1 & F2 & F3 & B1 & B2 & B3). split; [apply self_1976; try assumption; lia|apply self_2000; try assumption; try lia; apply lits32]. Qed.
Theorem C106_self_f64 (L : libm f64) (c : lab f64) : lab_libm 53 1024 L -> usual c -> @delta_E_1976 _ (ops64 L) c c = B754_zero false /\ @delta_E_2000 _ (ops64 L) c c = B754_zero false.
Proof. intros LL (F1 & F2 & F3 & B1 & B2 & B3). split; [apply self_1976; try assumption; lia|apply self_2000; try assumption; try lia; apply lits64]. Qed.
(* the distance of 1976 to 4 u, as long as its square does not underflow *)
Theorem C106_accurate_f32 (L : libm f32) (c d : lab f32) : powi_two 24 128 L -> within_far 24 128 c -> within_far 24 128 d ->
  is_finite (@delta_E_1976 _ (ops32 L) c d) = true
  /\ Rabs (B2R (@delta_E_1976 _ (ops32 L) c d) - distance 24 128 c d) <= 4 * bpow radix2 (-24) * distance 24 128 c d + bpow radix2 (-73)
  /\ (bpow radix2 (-72) <= distance 24 128 c d -> 0 < B2R (@delta_E_1976 _ (ops32 L) c d)).
Proof.
  intros P C D. destruct (accurate 24 128 ltac:(lia) ltac:(lia) L (fun q => f64_to_f32 (b_of_Q 53 1024 q)) c d (bpow radix2 (-75)) P C D) as [F A].
  - split; [apply bpow_gt_0|]. change 1 with (bpow radix2 0). apply bpow_le. lia.
  - rewrite <- bpow_plus. apply bpow_le. lia.
  - replace (4 * bpow radix2 (-75)) with (bpow radix2 (-73)) in A by (change 4 with (bpow radix2 2); rewrite <- bpow_plus; reflexivity). split; [exact F|]. split; [exact A|]. intro M. change (bpow radix2 (-72)) with (bpow radix2 (1 + -73)) in M. rewrite bpow_plus in M. change (bpow radix2 1) with 2 in M. pose proof (bpow_gt_0 radix2 (-73)) as T. assert (A2 : Rabs (B2R (@delta_E_1976 _ (ops32 L) c d) - distance 24 128 c d) <= 4 * (/ 16777216) * distance 24 128 c d + bpow radix2 (-73)) by exact A. apply Rabs_le_inv in A2. lra.
Qed.
Theorem C106_accurate_f64 (L : libm f64) (c d : lab f64) : powi_two 53 1024 L -> within_far 53 1024 c -> within_far 53 1024 d ->
  is_finite (@delta_E_1976 _ (ops64 L) c d) = true
  /\ Rabs (B2R (@delta_E_1976 _ (ops64 L) c d) - distance 53 1024 c d) <= 4 * bpow radix2 (-53) * distance 53 1024 c d + bpow radix2 (-535)
  /\ (bpow radix2 (-534) <= distance 53 1024 c d -> 0 < B2R (@delta_E_1976 _ (ops64 L) c d)).
Proof.
  intros P C D. destruct (accurate 53 1024 ltac:(lia) ltac:(lia) L (b_of_Q 53 1024) c d (bpow radix2 (-537)) P C D) as [F A].
  - split; [apply bpow_gt_0|]. change 1 with (bpow radix2 0). apply bpow_le. lia.
  - rewrite <- bpow_plus. apply bpow_le. lia.
  - replace (4 * bpow radix2 (-537)) with (bpow radix2 (-535)) in A by (change 4 with (bpow radix2 2); rewrite <- bpow_plus; reflexivity). split; [exact F|]. split; [exact A|]. intro M. change (bpow radix2 (-534)) with (bpow radix2 (1 + -535)) in M. rewrite bpow_plus in M. change (bpow radix2 1) with 2 in M. pose proof (bpow_gt_0 radix2 (-535)) as T. assert (A2 : Rabs (B2R (@delta_E_1976 _ (ops64 L) c d) - distance 53 1024 c d) <= 4 * (/ 9007199254740992) * distance 53 1024 c d + bpow radix2 (-535)) by exact A. apply Rabs_le_inv in A2. lra.
Qed.
(* but distinct colours can be at distance zero: lightness 0 and 2^-80 *)
Definition dim (z : Z) : lab f32 := Lab (binary_normalize 24 128 prec32 emax32 mode_NE z (-80) false) (B754_zero false) (B754_zero false).
Theorem C106_positive_refuted (L : libm f32) : powi_two 24 128 L -> exists c d : lab f32, usual c /\ usual d /\ B2R (lab_L c) < B2R (lab_L d) /\ @delta_E_1976 _ (ops32 L) c d = B754_zero false.
Proof.
  intro P. exists (dim 0), (dim 1). assert (V : B2R (lab_L (dim 1)) = bpow radix2 (-80)). { change (lab_L (dim 1)) with (binary_normalize 24 128 prec32 emax32 mode_NE 1 (-80) false). rewrite <- SF2R_B2SF. change (B2SF (binary_normalize 24 128 prec32 emax32 mode_NE 1 (-80) false)) with (SpecFloat.S754_finite false 8388608 (-103)). unfold SF2R, F2R. cbn [Fnum Fexp cond_Zopp]. change (IZR 8388608) with (bpow radix2 23). rewrite <- bpow_plus. reflexivity. }
  assert (V0 : B2R (lab_L (dim 0)) = 0) by reflexivity. assert (S : 0 < bpow radix2 (-80) <= 1) by (split; [apply bpow_gt_0|change 1 with (bpow radix2 0); apply bpow_le; lia]).
  assert (U0 : Rabs (B2R (lab_L (dim 0))) <= 4096) by (rewrite V0, Rabs_R0; lra). assert (U1 : Rabs (B2R (lab_L (dim 1))) <= 4096) by (rewrite V, Rabs_pos_eq; lra). assert (Z0 : Rabs (@B2R 24 128 (B754_zero false)) <= 4096) by (cbn [B2R]; rewrite Rabs_R0; lra).
  split; [|split; [|split]].
  - exact (conj eq_refl (conj eq_refl (conj eq_refl (conj U0 (conj Z0 Z0))))).
  - exact (conj eq_refl (conj eq_refl (conj eq_refl (conj U1 (conj Z0 Z0))))).
  - rewrite V, V0. apply S.
  - unfold delta_E_1976. cbn [rsqrt rpowi radd rsub b_ops f32_ops]. rewrite !P. vm_compute. reflexivity.
Qed.
(* the assumptions can be met *)
Example C106_libm : exists L : libm f32, lab_libm 24 128 L.
Proof.
  set (z := fun x : f32 => Bmult mode_NE x (B754_zero false)). set (o := B754_zero false : f32).
  exists {| l_exp := fun _ => o; l_sin := z; l_cos := fun _ => o; l_log10 := fun _ => o; l_powf := fun _ _ => o; l_powi := fun x n => if Z.eqb n 2 then Bmult mode_NE x x else Bone; l_atan2 := fun _ _ => o; l_hypot := fun _ _ => o; l_degrees := fun _ => o; l_radians := fun x => x; l_approx := fun _ _ _ _ => true |}.
  assert (O : forall a b, a <= 0 <= b -> rng 24 128 o a b) by (intros a b H; split; [reflexivity|exact H]).
  split; cbn [l_exp l_sin l_cos l_powi l_atan2 l_hypot l_degrees l_radians Z.eqb Pos.eqb].
  - intros. apply O. lra.
  - intros x H. change (B2R (@Bone 24 128 _ _)) with (B2R (@Bone 24 128 _ _)). split; [split; [apply is_finite_Bone|rewrite Bone_correct; split; [lra|]]|intros _; rewrite Bone_correct; lra]. change 1 with (bpow radix2 0). apply bpow_le. lia.
  - intro x. reflexivity.
  - intros. apply O. lra.
  - intros x [F _]. exact F.
  - intros x F. unfold z. destruct x as [s|s| |s m e B]; try discriminate F; apply O; lra.
  - intros. apply O. lra.
  - intros. apply O. lra.
  - split; [intro x; apply mult_opp|intros [|]; reflexivity].
  - split; [intro x; reflexivity|intro s; reflexivity].
Qed.
(* two colours 5 apart *)
Example C106_example (L : libm f32) : powi_two 24 128 L -> let q z := b_of_Z 24 128 z in @delta_E_1976 _ (ops32 L) (Lab (q 50%Z) (q 3%Z) (q 4%Z)) (Lab (q 50%Z) (q 0%Z) (q 0%Z)) = q 5%Z.
Proof. intros P q. unfold delta_E_1976. cbn [rsqrt rpowi radd rsub b_ops f32_ops lab_L lab_a lab_b]. rewrite !P. apply B2SF_inj. vm_compute. reflexivity. Qed.
