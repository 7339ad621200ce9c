(* Checked exact reals: the instance of RealOps for "exact arithmetic".

   [Bad] stands for any result that is not a real number (NaN or an infinity).  Division by
   zero, square root of a negative, logarithm of a non-positive and power of a negative to a
   non-integer produce it, every operation propagates it, and comparisons with it are false, as
   for NaN.  So an equation [f (Fin x) = Fin y] says in particular that no such operation
   happened on the way. *)
From Coq Require Import Reals ZArith QArith Qreals Lra Lia List Bool.
From Flocq Require Import Core.
From Verif Require Import Outcome RealOps.
Open Scope R_scope.

Inductive xr : Type := Fin (r : R) | Bad.

(* The constants of the float type the code is compiled for, and the approximate comparison of
   the float_cmp crate.  Theorems quantify over them. *)
Class XConst : Type := {
  xeps : R;                             (* T::epsilon() *)
  xtiny : R;                            (* T::min_positive_value() *)
  xmin : R;                             (* T::min_value() *)
  xmax : R;                             (* T::max_value() *)
  xapprox : R -> R -> R -> Z -> bool    (* approx_eq(a, b, epsilon, ulps) *)
}.

(* What the theorems need of them: positivity, that epsilon (2^-23 or 2^-52) and the smallest
   normal number (2^-126 or 2^-1022) are small, and
   that two numbers no further apart than the given margin are approximately equal (float_cmp
   checks the epsilon first). *)
Class XConstOk (K : XConst) : Prop := {
  xeps_pos : 0 < xeps;
  xeps_small : xeps < / 1000;
  xtiny_pos : 0 < xtiny;
  xtiny_small : xtiny < / 1000;
  xapprox_margin : forall a b e u, Rabs (a - b) <= e -> xapprox a b e u = true
}.

Definition xlift1 (f : R -> R) (a : xr) : xr :=
  match a with Fin x => Fin (f x) | Bad => Bad end.
Definition xlift2 (f : R -> R -> R) (a b : xr) : xr :=
  match a, b with Fin x, Fin y => Fin (f x y) | _, _ => Bad end.
Definition xcmp (f : R -> R -> bool) (a b : xr) : bool :=
  match a, b with Fin x, Fin y => f x y | _, _ => false end.

Definition Rltb (x y : R) : bool := if Rlt_dec x y then true else false.
Definition Rleb (x y : R) : bool := if Rle_dec x y then true else false.
Definition Reqb (x y : R) : bool := if Req_EM_T x y then true else false.

Definition xdiv (a b : xr) : xr :=
  match a, b with
  | Fin x, Fin y => if Req_EM_T y 0 then Bad else Fin (x / y)
  | _, _ => Bad
  end.
Definition xsqrt (a : xr) : xr :=
  match a with
  | Fin x => if Rlt_dec x 0 then Bad else Fin (sqrt x)
  | Bad => Bad
  end.
Definition xlog10 (a : xr) : xr :=
  match a with
  | Fin x => if Rlt_dec 0 x then Fin (ln x / ln 10) else Bad
  | Bad => Bad
  end.
(* real power: positive base; zero to a nonnegative power; negative base to an integer power *)
Definition xpowf (a b : xr) : xr :=
  match a, b with
  | Fin x, Fin y =>
      if Rlt_dec 0 x then Fin (Rpower x y)
      else if Req_EM_T x 0 then
        (if Rlt_dec 0 y then Fin 0 else if Req_EM_T y 0 then Fin 1 else Bad)
      else if Req_EM_T y (IZR (Zfloor y)) then Fin (powerRZ x (Zfloor y))
      else Bad
  | _, _ => Bad
  end.
Definition xpowi (a : xr) (n : Z) : xr :=
  match a with
  | Fin x => if Req_EM_T x 0 then (if Z.ltb n 0 then Bad else Fin (powerRZ x n))
             else Fin (powerRZ x n)
  | Bad => Bad
  end.
Definition Ratan2 (y x : R) : R :=
  if Rlt_dec 0 x then atan (y / x)
  else if Rlt_dec x 0 then (if Rle_dec 0 y then atan (y / x) + PI else atan (y / x) - PI)
  else if Rlt_dec 0 y then PI / 2
  else if Rlt_dec y 0 then - (PI / 2)
  else 0.
(* max and min return the other operand when one is NaN *)
Definition xrmax (a b : xr) : xr :=
  match a, b with
  | Fin x, Fin y => Fin (Rmax x y)
  | Fin x, Bad => Fin x
  | Bad, _ => b
  end.
Definition xrmin (a b : xr) : xr :=
  match a, b with
  | Fin x, Fin y => Fin (Rmin x y)
  | Fin x, Bad => Fin x
  | Bad, _ => b
  end.
Definition xround (x : R) : R := IZR (ZnearestA x).
(* ToPrimitive::to_usize: None unless -1 < x < 2^64 *)
Definition xto_usize (a : xr) : option Z :=
  match a with
  | Fin x => if Rlt_dec (-1) x then
               (if Rlt_dec x 18446744073709551616 then Some (Ztrunc x) else None)
             else None
  | Bad => None
  end.
(* [as uN]: truncate towards zero, saturate, NaN to 0 *)
Definition xas_uint (m : Z) (a : xr) : Z :=
  match a with
  | Fin x => Z.min (Z.max (Ztrunc x) 0) m
  | Bad => 0%Z
  end.
Definition xapp (K : XConst) (a b e : xr) (u : Z) : bool :=
  match a, b, e with
  | Fin x, Fin y, Fin z => xapprox x y z u
  | _, _, _ => false
  end.

Global Instance xr_ops {K : XConst} : RealOps xr := {
  rzero := Fin 0;
  rone := Fin 1;
  radd := xlift2 Rplus;
  rsub := xlift2 Rminus;
  rmul := xlift2 Rmult;
  rdiv := xdiv;
  rneg := xlift1 Ropp;
  rfma := fun a b c => xlift2 Rplus (xlift2 Rmult a b) c;
  rabs := xlift1 Rabs;
  rlt := xcmp Rltb;
  rle := xcmp Rleb;
  req := xcmp Reqb;
  rmax := xrmax;
  rmin := xrmin;
  rsqrt := xsqrt;
  rexp := xlift1 exp;
  rsin := xlift1 sin;
  rcos := xlift1 cos;
  rlog10 := xlog10;
  rpowf := xpowf;
  rpowi := xpowi;
  ratan2 := xlift2 Ratan2;
  rhypot := xlift2 (fun x y => sqrt (x * x + y * y));
  rto_degrees := xlift1 (fun x => x * 180 / PI);
  rto_radians := xlift1 (fun x => x * PI / 180);
  rround := xlift1 xround;
  repsilon := Fin xeps;
  rmin_positive := Fin xtiny;
  rmin_value := Fin xmin;
  rmax_value := Fin xmax;
  rlit := fun q => Fin (Q2R q);
  rlitd := fun q => Fin (Q2R q);
  rof_Z := fun z => Fin (IZR z);
  rto_usize := xto_usize;
  ras_uint := xas_uint;
  rapprox := xapp K
}.

(* ---- f64 and f32 constants, to show the hypotheses are satisfiable ---- *)
Definition margin_approx (a b e : R) (u : Z) : bool := Rleb (Rabs (a - b)) e.
Definition f64_const : XConst :=
  {| xeps := bpow radix2 (-52); xtiny := bpow radix2 (-1022);
     xmin := - (bpow radix2 1024 - bpow radix2 971); xmax := bpow radix2 1024 - bpow radix2 971;
     xapprox := margin_approx |}.
Definition f32_const : XConst :=
  {| xeps := bpow radix2 (-23); xtiny := bpow radix2 (-126);
     xmin := - (bpow radix2 128 - bpow radix2 104); xmax := bpow radix2 128 - bpow radix2 104;
     xapprox := margin_approx |}.

Lemma margin_approx_ok a b e u : Rabs (a - b) <= e -> margin_approx a b e u = true.
Proof. unfold margin_approx, Rleb. intro H. destruct (Rle_dec _ _); tauto. Qed.
Lemma f64_const_ok : XConstOk f64_const.
Proof. 
  split; [apply bpow_gt_0 | cbn; lra | apply bpow_gt_0 | | exact margin_approx_ok].
  apply Rlt_le_trans with (bpow radix2 (-10)); [apply bpow_lt; lia | cbn; lra]. Qed.
Lemma f32_const_ok : XConstOk f32_const.
Proof. 
  split; [apply bpow_gt_0 | cbn; lra | apply bpow_gt_0 | | exact margin_approx_ok].
  apply Rlt_le_trans with (bpow radix2 (-10)); [apply bpow_lt; lia | cbn; lra]. Qed.

(* ---- computation rules ---- *)
Section Rules.
Context {K : XConst}.

Lemma x_add x y : radd (Fin x) (Fin y) = Fin (x + y). Proof. reflexivity. Qed.
Lemma x_sub x y : rsub (Fin x) (Fin y) = Fin (x - y). Proof. reflexivity. Qed.
Lemma x_mul x y : rmul (Fin x) (Fin y) = Fin (x * y). Proof. reflexivity. Qed.
Lemma x_neg x : rneg (Fin x) = Fin (- x). Proof. reflexivity. Qed.
Lemma x_abs x : rabs (Fin x) = Fin (Rabs x). Proof. reflexivity. Qed.
Lemma x_zero : (rzero : xr) = Fin 0. Proof. reflexivity. Qed.
Lemma x_one : (rone : xr) = Fin 1. Proof. reflexivity. Qed.
Lemma x_lit q : (rlit q : xr) = Fin (Q2R q). Proof. reflexivity. Qed.
Lemma x_litd q : (rlitd q : xr) = Fin (Q2R q). Proof. reflexivity. Qed.
Lemma x_of_Z z : (rof_Z z : xr) = Fin (IZR z). Proof. reflexivity. Qed.
Lemma x_fma x y z : rfma (Fin x) (Fin y) (Fin z) = Fin (x * y + z). Proof. reflexivity. Qed.
Lemma x_max x y : rmax (Fin x) (Fin y) = Fin (Rmax x y). Proof. reflexivity. Qed.
Lemma x_min x y : rmin (Fin x) (Fin y) = Fin (Rmin x y). Proof. reflexivity. Qed.
Lemma x_exp x : rexp (Fin x) = Fin (exp x). Proof. reflexivity. Qed.
Lemma x_sin x : rsin (Fin x) = Fin (sin x). Proof. reflexivity. Qed.
Lemma x_cos x : rcos (Fin x) = Fin (cos x). Proof. reflexivity. Qed.
Lemma x_atan2 x y : ratan2 (Fin x) (Fin y) = Fin (Ratan2 x y). Proof. reflexivity. Qed.
Lemma x_hypot x y : rhypot (Fin x) (Fin y) = Fin (sqrt (x * x + y * y)). Proof. reflexivity. Qed.
Lemma x_deg x : rto_degrees (Fin x) = Fin (x * 180 / PI). Proof. reflexivity. Qed.
Lemma x_rad x : rto_radians (Fin x) = Fin (x * PI / 180). Proof. reflexivity. Qed.
Lemma x_lt x y : rlt (Fin x) (Fin y) = Rltb x y. Proof. reflexivity. Qed.
Lemma x_le x y : rle (Fin x) (Fin y) = Rleb x y. Proof. reflexivity. Qed.
Lemma x_eq x y : req (Fin x) (Fin y) = Reqb x y. Proof. reflexivity. Qed.
Lemma x_epsilon : (repsilon : xr) = Fin xeps. Proof. reflexivity. Qed.
Lemma x_min_positive : (rmin_positive : xr) = Fin xtiny. Proof. reflexivity. Qed.
Lemma x_div x y : y <> 0 -> rdiv (Fin x) (Fin y) = Fin (x / y).
Proof. intro H. cbn. destruct (Req_EM_T y 0); [contradiction|reflexivity]. Qed.
Lemma xdiv_fin x y : y <> 0 -> xdiv (Fin x) (Fin y) = Fin (x / y).
Proof. exact (x_div x y). Qed.
Lemma x_div0 x : rdiv (Fin x) (Fin 0) = Bad.
Proof. cbn. destruct (Req_EM_T 0 0) as [_|n]; [reflexivity|now elim n]. Qed.
Lemma x_sqrt x : 0 <= x -> rsqrt (Fin x) = Fin (sqrt x).
Proof. intro H. cbn. destruct (Rlt_dec x 0); [lra|reflexivity]. Qed.
Lemma x_log10 x : 0 < x -> rlog10 (Fin x) = Fin (ln x / ln 10).
Proof. intro H. cbn. destruct (Rlt_dec 0 x); [reflexivity|contradiction]. Qed.
Lemma x_powf x y : 0 < x -> rpowf (Fin x) (Fin y) = Fin (Rpower x y).
Proof. intro H. cbn. destruct (Rlt_dec 0 x); [reflexivity|contradiction]. Qed.
Lemma x_powf0 y : 0 < y -> rpowf (Fin 0) (Fin y) = Fin 0.
Proof.
  intro H. cbn. destruct (Rlt_dec 0 0); [lra|]. destruct (Req_EM_T 0 0); [|lra].
  destruct (Rlt_dec 0 y); [reflexivity|contradiction].
Qed.
Lemma x_powi x n : rpowi (Fin x) (Z.of_nat n) = Fin (x ^ n).
Proof.
  cbn. unfold xpowi.
  assert (H : powerRZ x (Z.of_nat n) = x ^ n).
  { symmetry. apply pow_powerRZ. }
  rewrite H. destruct (Req_EM_T x 0); [|reflexivity].
  destruct (Z.ltb_spec (Z.of_nat n) 0); [lia|reflexivity].
Qed.
Lemma x_powi2 x : rpowi (Fin x) 2 = Fin (x ^ 2). Proof. exact (x_powi x 2). Qed.
Lemma x_powi3 x : rpowi (Fin x) 3 = Fin (x ^ 3). Proof. exact (x_powi x 3). Qed.
Lemma x_powi4 x : rpowi (Fin x) 4 = Fin (x ^ 4). Proof. exact (x_powi x 4). Qed.
Lemma x_powi5 x : rpowi (Fin x) 5 = Fin (x ^ 5). Proof. exact (x_powi x 5). Qed.
Lemma x_powi7 x : rpowi (Fin x) 7 = Fin (x ^ 7). Proof. exact (x_powi x 7). Qed.
End Rules.

Lemma Rltb_spec x y : reflect (x < y) (Rltb x y).
Proof. unfold Rltb. destruct (Rlt_dec x y); constructor; assumption. Qed.
Lemma Rleb_spec x y : reflect (x <= y) (Rleb x y).
Proof. unfold Rleb. destruct (Rle_dec x y); constructor; assumption. Qed.
Lemma Reqb_spec x y : reflect (x = y) (Reqb x y).
Proof. unfold Reqb. destruct (Req_EM_T x y); constructor; assumption. Qed.
Lemma Rltb_true x y : x < y -> Rltb x y = true.
Proof. intro H. destruct (Rltb_spec x y); tauto. Qed.
Lemma Rltb_false x y : y <= x -> Rltb x y = false.
Proof. intro H. destruct (Rltb_spec x y); [lra|reflexivity]. Qed.
Lemma Rleb_true x y : x <= y -> Rleb x y = true.
Proof. intro H. destruct (Rleb_spec x y); tauto. Qed.
Lemma Rleb_false x y : y < x -> Rleb x y = false.
Proof. intro H. destruct (Rleb_spec x y); [lra|reflexivity]. Qed.
Lemma Reqb_true x y : x = y -> Reqb x y = true.
Proof. intro H. destruct (Reqb_spec x y); tauto. Qed.
Lemma Reqb_false x y : x <> y -> Reqb x y = false.
Proof. intro H. destruct (Reqb_spec x y); tauto. Qed.

Lemma Fin_inj x y : Fin x = Fin y -> x = y.
Proof. congruence. Qed.

(* turn decimal literals into real fractions lra understands *)
Ltac q2r := unfold Q2R in *; cbn [Qnum Qden] in *.
(* evaluate the total operations on Fin; divisions are left *)
Global Hint Rewrite @x_add @x_sub @x_mul @x_neg @x_abs @x_zero @x_one @x_lit @x_litd @x_of_Z
  @x_fma @x_max @x_min @x_exp @x_sin @x_cos @x_atan2 @x_hypot @x_deg @x_rad @x_lt @x_le @x_eq
  @x_epsilon @x_min_positive
  @x_powi2 @x_powi3 @x_powi4 @x_powi5 @x_powi7 : xr.
Ltac xs := autorewrite with xr in *.
