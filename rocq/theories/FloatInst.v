(* IEEE 754 binary floating point: the instance of RealOps for f32 and f64.

   Arithmetic, comparison, square root, fma, rounding to integer and conversions are Flocq's,
   round to nearest even.  All NaNs are one value: no modelled code looks at a NaN's payload.
   Functions whose result the Rust documentation leaves to the platform (exp, sin, powf, powi,
   ...) and the float_cmp comparison are a parameter [libm]; theorems hold for all of them. *)
From Coq Require Import Reals ZArith QArith Qreals Lra Lia Bool.
From Flocq Require Import Core BinarySingleNaN.
From Verif Require Import RealOps.

Record libm (T : Type) : Type := {
  l_exp : T -> T; l_sin : T -> T; l_cos : T -> T; l_log10 : T -> T;
  l_powf : T -> T -> T; l_powi : T -> Z -> T; l_atan2 : T -> T -> T; l_hypot : T -> T -> T;
  l_degrees : T -> T; l_radians : T -> T;
  l_approx : T -> T -> T -> Z -> bool
}.
Arguments l_exp {T} _.
Arguments l_sin {T} _.
Arguments l_cos {T} _.
Arguments l_log10 {T} _.
Arguments l_powf {T} _.
Arguments l_powi {T} _.
Arguments l_atan2 {T} _.
Arguments l_hypot {T} _.
Arguments l_degrees {T} _.
Arguments l_radians {T} _.
Arguments l_approx {T} _.

Section Float.
Context (prec emax : Z) {Hp : Prec_gt_0 prec} {He : Prec_lt_emax prec emax}.
Notation fl := (binary_float prec emax).

(* an integer [as fN] *)
Definition b_of_Z (z : Z) : fl := binary_normalize prec emax _ _ mode_NE z 0 false.

(* a decimal literal: the nearest float *)
Definition b_of_Q (q : Q) : fl :=
  match Qnum q with
  | Z0 => B754_zero false
  | Zpos m => SF2B _ (proj1 (Bdiv_correct_aux prec emax _ _ mode_NE false m 0 false (Qden q) 0))
  | Zneg m => SF2B _ (proj1 (Bdiv_correct_aux prec emax _ _ mode_NE true m 0 false (Qden q) 0))
  end.

(* f32::max, f32::min: the other operand when one is NaN.  On a tie between zeros of different
   sign the Rust documentation leaves the choice open; here it is the first operand. *)
Definition b_max (a b : fl) : fl :=
  if is_nan a then b else if is_nan b then a else if Bltb a b then b else a.
Definition b_min (a b : fl) : fl :=
  if is_nan a then b else if is_nan b then a else if Bltb b a then b else a.

(* [as uN]: truncate towards zero, saturate, NaN to 0 *)
Definition b_as_uint (m : Z) (a : fl) : Z :=
  match a with
  | B754_nan => 0
  | B754_infinity s => if s then 0 else m
  | _ => Z.min (Z.max (Btrunc a) 0) m
  end.

(* num_traits ToPrimitive::to_usize: None for NaN, infinities and truncations outside
   0 ..= 2^64-1 *)
Definition b_to_usize (a : fl) : option Z :=
  if is_finite a then
    (if (0 <=? Btrunc a)%Z && (Btrunc a <? 18446744073709551616)%Z then Some (Btrunc a) else None)
  else None.

Definition b_ops (L : libm fl) (lit : Q -> fl) : RealOps fl := {|
  rzero := B754_zero false;
  rone := Bone;
  radd := Bplus mode_NE;
  rsub := Bminus mode_NE;
  rmul := Bmult mode_NE;
  rdiv := Bdiv mode_NE;
  rneg := Bopp;
  rfma := Bfma mode_NE;
  rabs := Babs;
  rlt := Bltb;
  rle := Bleb;
  req := Beqb;
  rmax := b_max;
  rmin := b_min;
  rsqrt := Bsqrt mode_NE;
  rexp := l_exp L;
  rsin := l_sin L;
  rcos := l_cos L;
  rlog10 := l_log10 L;
  rpowf := l_powf L;
  rpowi := l_powi L;
  ratan2 := l_atan2 L;
  rhypot := l_hypot L;
  rto_degrees := l_degrees L;
  rto_radians := l_radians L;
  rround := Bnearbyint mode_NA;
  repsilon := binary_normalize prec emax _ _ mode_NE 1 (1 - prec) false;
  rmin_positive := binary_normalize prec emax _ _ mode_NE 1 (2 - emax) false;
  rmin_value := Bopp Bmax_float;
  rmax_value := Bmax_float;
  rlit := lit;
  rlitd := b_of_Q;
  rof_Z := b_of_Z;
  rto_usize := b_to_usize;
  ras_uint := b_as_uint;
  rapprox := l_approx L
|}.

End Float.

(* conversion between widths ([as f32], f64::from) *)
Definition b_conv (p1 e1 p2 e2 : Z) {H2 : Prec_gt_0 p2} {E2 : Prec_lt_emax p2 e2}
  (x : binary_float p1 e1) : binary_float p2 e2 :=
  match x with
  | B754_zero s => B754_zero s
  | B754_infinity s => B754_infinity s
  | B754_nan => B754_nan
  | B754_finite s m e _ => binary_normalize p2 e2 _ _ mode_NE (cond_Zopp s (Zpos m)) e s
  end.

Global Instance prec64 : Prec_gt_0 53. Proof. reflexivity. Qed.
Global Instance emax64 : Prec_lt_emax 53 1024. Proof. reflexivity. Qed.
Global Instance prec32 : Prec_gt_0 24. Proof. reflexivity. Qed.
Global Instance emax32 : Prec_lt_emax 24 128. Proof. reflexivity. Qed.

Definition f64 := binary_float 53 1024.
Definition f32 := binary_float 24 128.
Definition f64_to_f32 : f64 -> f32 := b_conv 53 1024 24 128.
Definition f32_to_f64 : f32 -> f64 := b_conv 24 128 53 1024.

(* [T::from(<literal>).unwrap()] parses the literal as f64 and converts it *)
Definition f64_ops (L : libm f64) : RealOps f64 := b_ops 53 1024 L (b_of_Q 53 1024).
Definition f32_ops (L : libm f32) : RealOps f32 :=
  b_ops 24 128 L (fun q => f64_to_f32 (b_of_Q 53 1024 q)).

(* ---- basic facts ---- *)
Section FloatFacts.
Context (prec emax : Z) {Hp : Prec_gt_0 prec} {He : Prec_lt_emax prec emax}.
Notation fl := (binary_float prec emax).
Notation fexp := (SpecFloat.fexp prec emax).
Notation rnd := (round radix2 fexp ZnearestE).
Open Scope R_scope.

Global Instance valid_fexp : Valid_exp fexp.
Proof. apply (fexp_correct prec emax). exact Hp. Qed.
Global Instance mono_fexp : Monotone_exp fexp.
Proof. apply (fexp_monotone prec emax). Qed.

Lemma prec_pos : (0 < prec)%Z. Proof. exact Hp. Qed.
Lemma prec_emax : (prec < emax)%Z. Proof. exact He. Qed.

(* integers up to 2^prec are floats *)
Lemma int_format z : (Z.abs z <= 2 ^ prec)%Z -> generic_format radix2 fexp (IZR z).
Proof.
  intro H. pose proof prec_pos. pose proof prec_emax.
  apply generic_format_FLT.
  destruct (Z.eq_dec (Z.abs z) (2 ^ prec)) as [E|N].
  - exists (Float radix2 (Z.sgn z) prec); cbn [Fnum Fexp].
    + unfold F2R. cbn [Fnum Fexp]. rewrite <- (IZR_Zpower radix2) by (apply Z.lt_le_incl; assumption).
      rewrite <- mult_IZR. f_equal. change (radix2 ^ prec)%Z with (2 ^ prec)%Z. rewrite <- E. rewrite Z.mul_comm. symmetry. apply Z.abs_sgn.
    + assert (1 < Z.pow 2 prec)%Z by (apply Z.pow_gt_1; [reflexivity|assumption]).
      change (radix2 ^ prec)%Z with (2 ^ prec)%Z.
      destruct z; cbn [Z.sgn Z.abs]; lia.
    + unfold SpecFloat.emin. lia.
  - exists (Float radix2 z 0); cbn [Fnum Fexp].
    + unfold F2R. cbn. ring.
    + change (radix2 ^ prec)%Z with (2 ^ prec)%Z. lia.
    + unfold SpecFloat.emin. lia.
Qed.

Lemma int_lt_emax z : (Z.abs z <= 2 ^ prec)%Z -> Rabs (IZR z) < bpow radix2 emax.
Proof.
  intro H. rewrite <- abs_IZR. apply Rle_lt_trans with (IZR (2 ^ prec)).
  - apply IZR_le, H.
  - change (2 ^ prec)%Z with (radix2 ^ prec)%Z. pose proof prec_pos. pose proof prec_emax.
    rewrite IZR_Zpower by lia. apply bpow_lt. lia.
Qed.

Lemma b_of_Z_exact z : (Z.abs z <= 2 ^ prec)%Z ->
  B2R (b_of_Z prec emax z) = IZR z /\ is_finite (b_of_Z prec emax z) = true /\
  Bsign (b_of_Z prec emax z) = Z.ltb z 0.
Proof.
  intro H. unfold b_of_Z.
  pose proof (binary_normalize_correct prec emax _ _ mode_NE z 0 false) as C. cbv zeta in C.
  assert (F : F2R (Float radix2 z 0) = IZR z) by (unfold F2R; cbn; ring).
  rewrite F in C. cbn [round_mode] in C. rewrite round_generic in C by (try apply int_format; auto with typeclass_instances).
  rewrite Rlt_bool_true in C by (apply int_lt_emax; exact H).
  destruct C as (C1 & C2 & C3). repeat split; try assumption. rewrite C3.
  destruct (Z.ltb_spec z 0).
  - rewrite Rcompare_Lt; [reflexivity|]. apply IZR_lt. exact H0.
  - destruct (Z.eq_dec z 0) as [->|N].
    + rewrite Rcompare_Eq; reflexivity.
    + rewrite Rcompare_Gt; [reflexivity|]. apply IZR_lt. lia.
Qed.

(* a literal is the nearest float, when that does not overflow *)
Lemma b_of_Q_correct q : Rabs (rnd (Q2R q)) < bpow radix2 emax ->
  B2R (b_of_Q prec emax q) = rnd (Q2R q) /\ is_finite (b_of_Q prec emax q) = true /\
  Bsign (b_of_Q prec emax q) = Z.ltb (Qnum q) 0.
Proof.
  intro H. destruct q as [n d]. unfold b_of_Q. cbn [Qnum Qden].
  assert (D : forall z, IZR z / IZR (Zpos d) = Q2R (Qmake z d)) by (intro z; reflexivity).
  assert (F : forall z, F2R (Float radix2 z 0) = IZR z) by (intro z; unfold F2R; cbn; ring).
  destruct n as [|m|m].
  - assert (Q2R (0 # d) = 0) by (unfold Q2R; cbn; ring). rewrite H0. rewrite round_0 by auto with typeclass_instances.
    repeat split; reflexivity.
  - pose proof (Bdiv_correct_aux prec emax _ _ mode_NE false m 0 false d 0) as C. cbv zeta in C.
    rewrite !F in C. cbn [cond_Zopp round_mode] in C. rewrite D, Rlt_bool_true in C by exact H.
    match goal with |- context [SF2B _ ?p] => generalize p end. intro p.
    rewrite B2R_SF2B, is_finite_SF2B, Bsign_SF2B. destruct C as (_ & C1 & C2 & C3).
    rewrite C1, C2, C3. repeat split; reflexivity.
  - pose proof (Bdiv_correct_aux prec emax _ _ mode_NE true m 0 false d 0) as C. cbv zeta in C.
    rewrite !F in C. cbn [cond_Zopp round_mode] in C. change (- Zpos m)%Z with (Zneg m) in C. rewrite D, Rlt_bool_true in C by exact H.
    match goal with |- context [SF2B _ ?p] => generalize p end. intro p.
    rewrite B2R_SF2B, is_finite_SF2B, Bsign_SF2B. destruct C as (_ & C1 & C2 & C3).
    rewrite C1, C2, C3. repeat split; reflexivity.
Qed.

(* literals denoting small integers are exact *)
Lemma b_of_Q_int q z : Q2R q = IZR z -> (Z.abs z <= 2 ^ prec)%Z ->
  B2R (b_of_Q prec emax q) = IZR z /\ is_finite (b_of_Q prec emax q) = true.
Proof.
  intros E H.
  assert (R : rnd (Q2R q) = IZR z).
  { rewrite E. apply round_generic; auto with typeclass_instances. apply int_format, H. }
  destruct (b_of_Q_correct q) as (A & B & _); [rewrite R; apply int_lt_emax; exact H|].
  rewrite A. split; assumption.
Qed.

(* comparisons with finite operands *)
Lemma bltb_fin (x y : fl) : is_finite x = true -> is_finite y = true ->
  Bltb x y = Rlt_bool (B2R x) (B2R y).
Proof. apply Bltb_correct. Qed.
Lemma bleb_fin (x y : fl) : is_finite x = true -> is_finite y = true ->
  Bleb x y = Rle_bool (B2R x) (B2R y).
Proof. apply Bleb_correct. Qed.
Lemma beqb_fin (x y : fl) : is_finite x = true -> is_finite y = true ->
  Beqb x y = Req_bool (B2R x) (B2R y).
Proof. apply Beqb_correct. Qed.

Lemma btrunc_spec (x : fl) : Btrunc x = Ztrunc (B2R x).
Proof. apply eq_IZR. rewrite Btrunc_correct by exact He.
  unfold round, F2R, scaled_mantissa, cexp, FIX_exp. cbn. rewrite !Rmult_1_r. reflexivity.
Qed.

Lemma bround_spec (x : fl) :
  B2R (Bnearbyint mode_NA x) = IZR (ZnearestA (B2R x)) /\ is_finite (Bnearbyint mode_NA x) = is_finite x.
Proof.
  destruct (Bnearbyint_correct prec emax He mode_NA x) as (A & B & _). split; [|exact B].
  rewrite A. unfold round, F2R, scaled_mantissa, cexp, FIX_exp. cbn. rewrite !Rmult_1_r. reflexivity.
Qed.

Lemma rnd_le x y : x <= y -> rnd x <= rnd y.
Proof. apply round_le; auto with typeclass_instances. Qed.

End FloatFacts.
