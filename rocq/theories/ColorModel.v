(* Models of /repo/src/rgb.rs, /repo/src/xyz.rs, /repo/src/chromaticity.rs and the
   matrix-times-colour operators of /repo/src/math.rs *)
From Coq Require Import List ZArith QArith.
From Verif Require Import Outcome RealOps MathModel.
Import ListNotations.
Open Scope num_scope.

(* rgb.rs 13-19 *)
Record rgbf (T : Type) : Type := Rgb { rgb_r : T; rgb_g : T; rgb_b : T }.
Arguments Rgb {T} _ _ _.
Arguments rgb_r {T} _.
Arguments rgb_g {T} _.
Arguments rgb_b {T} _.

(* xyz.rs 15-25 *)
Record xyz (T : Type) : Type := Xyz { xyz_x : T; xyz_y : T; xyz_z : T }.
Arguments Xyz {T} _ _ _.
Arguments xyz_x {T} _.
Arguments xyz_y {T} _.
Arguments xyz_z {T} _.

(* chromaticity.rs 11-21 *)
Record xyy (T : Type) : Type := Xyy { xyy_x : T; xyy_y : T; xyy_Y : T }.
Arguments Xyy {T} _ _ _.
Arguments xyy_x {T} _.
Arguments xyy_y {T} _.
Arguments xyy_Y {T} _.

(* rgb.rs 473-499: RGBu8 and RGBu16; the channel values are integers 0..=255 / 0..=65535 *)
Definition rgbu := rgbf Z.

(* -- cast_slice, rgb.rs 49-55 and 482-490.  The pointer cast reinterprets the same memory:
   with repr(C) and three equal fields, pixel i is elements 3i, 3i+1, 3i+2. -- *)
Fixpoint group3 {A : Type} (l : list A) : list (rgbf A) :=
  match l with
  | r :: g :: b :: rest => Rgb r g b :: group3 rest
  | _ => []
  end.
Definition rgb_cast_slice {A : Type} (l : list A) : outcome (list (rgbf A)) :=
  if Nat.eqb (Nat.modulo (length l) 3) 0 then Ret (group3 l) else Panic.

(* rgb.rs 129-143; xyz.rs 134-148 *)
Definition rgb_index {A : Type} (c : rgbf A) (i : nat) : outcome A :=
  match i with
  | 0 => Ret (rgb_r c) | 1 => Ret (rgb_g c) | 2 => Ret (rgb_b c) | _ => Panic
  end%nat.
Definition xyz_index {A : Type} (c : xyz A) (i : nat) : outcome A :=
  match i with
  | 0 => Ret (xyz_x c) | 1 => Ret (xyz_y c) | 2 => Ret (xyz_z c) | _ => Panic
  end%nat.
(* rgb.rs 145-157; xyz.rs 150-162: [c[i] = v] *)
Definition rgb_index_mut {A : Type} (c : rgbf A) (i : nat) (v : A) : outcome (rgbf A) :=
  match i with
  | 0 => Ret (Rgb v (rgb_g c) (rgb_b c))
  | 1 => Ret (Rgb (rgb_r c) v (rgb_b c))
  | 2 => Ret (Rgb (rgb_r c) (rgb_g c) v)
  | _ => Panic
  end%nat.
Definition xyz_index_mut {A : Type} (c : xyz A) (i : nat) (v : A) : outcome (xyz A) :=
  match i with
  | 0 => Ret (Xyz v (xyz_y c) (xyz_z c))
  | 1 => Ret (Xyz (xyz_x c) v (xyz_z c))
  | 2 => Ret (Xyz (xyz_x c) (xyz_y c) v)
  | _ => Panic
  end%nat.

Section Color.
Context {T : Type} {O : RealOps T}.

(* ---- rgb.rs ---- *)
(* rgb.rs 29-31 *)
Definition rgb_from_scalar (s : T) : rgbf T := Rgb s s s.
(* rgb.rs 33-39 *)
Definition rgb_powf (c : rgbf T) (x : T) : rgbf T :=
  Rgb (rpowf (rgb_r c) x) (rpowf (rgb_g c) x) (rpowf (rgb_b c) x).
(* rgb.rs 41-47 *)
Definition rgb_abs (c : rgbf T) : rgbf T :=
  Rgb (rabs (rgb_r c)) (rabs (rgb_g c)) (rabs (rgb_b c)).
(* derived PartialEq, rgb.rs 14 *)
Definition rgb_eqb (a b : rgbf T) : bool :=
  (rgb_r a =? rgb_r b) && (rgb_g a =? rgb_g b) && (rgb_b a =? rgb_b b).
(* rgb.rs 87 and 101-106 *)
Definition rgb_zero : rgbf T := rgb_from_scalar rzero.
Definition rgb_one : rgbf T := rgb_from_scalar rone.
(* rgb.rs 89-94 *)
Definition rgb_is_zero (c : rgbf T) : bool :=
  (rgb_r c =? rzero) && (rgb_g c =? rzero) && (rgb_b c =? rzero).
(* rgb.rs 113-126 *)
Definition rgb_min_value : rgbf T := rgb_from_scalar rmin_value.
Definition rgb_max_value : rgbf T := rgb_from_scalar rmax_value.
(* rgb.rs 159-173 *)
Definition rgb_approx_eq (a b : rgbf T) (eps : T) (ulps : Z) : bool :=
  rapprox (rgb_r a) (rgb_r b) eps ulps && rapprox (rgb_g a) (rgb_g b) eps ulps
  && rapprox (rgb_b a) (rgb_b b) eps ulps.
(* rgb.rs 213-238 (Add and AddAssign) *)
Definition rgb_add (a b : rgbf T) : rgbf T :=
  Rgb (rgb_r a + rgb_r b) (rgb_g a + rgb_g b) (rgb_b a + rgb_b b).
(* rgb.rs 241-254 *)
Definition rgb_sub (a b : rgbf T) : rgbf T :=
  Rgb (rgb_r a - rgb_r b) (rgb_g a - rgb_g b) (rgb_b a - rgb_b b).
(* rgb.rs 257-270 *)
Definition rgb_mul (a b : rgbf T) : rgbf T :=
  Rgb (rgb_r a * rgb_r b) (rgb_g a * rgb_g b) (rgb_b a * rgb_b b).
(* rgb.rs 273-286 *)
Definition rgb_div (a b : rgbf T) : rgbf T :=
  Rgb (rgb_r a / rgb_r b) (rgb_g a / rgb_g b) (rgb_b a / rgb_b b).
(* rgb.rs 289-302 *)
Definition rgb_neg (a : rgbf T) : rgbf T :=
  Rgb (- rgb_r a) (- rgb_g a) (- rgb_b a).
(* rgb.rs 305-318 *)
Definition rgb_mul_s (a : rgbf T) (k : T) : rgbf T :=
  Rgb (rgb_r a * k) (rgb_g a * k) (rgb_b a * k).
(* rgb.rs 321-334 *)
Definition rgb_div_s (a : rgbf T) (k : T) : rgbf T :=
  Rgb (rgb_r a / k) (rgb_g a / k) (rgb_b a / k).
(* rgb.rs 337-350 *)
Definition rgb_add_s (a : rgbf T) (k : T) : rgbf T :=
  Rgb (rgb_r a + k) (rgb_g a + k) (rgb_b a + k).
(* rgb.rs 353-366 *)
Definition rgb_sub_s (a : rgbf T) (k : T) : rgbf T :=
  Rgb (rgb_r a - k) (rgb_g a - k) (rgb_b a - k).
(* rgb.rs 369-386, f32 only *)
Definition s_mul_rgb (k : T) (a : rgbf T) : rgbf T :=
  Rgb (k * rgb_r a) (k * rgb_g a) (k * rgb_b a).
(* rgb.rs 389-406: note the operand order *)
Definition s_add_rgb (k : T) (a : rgbf T) : rgbf T :=
  Rgb (rgb_r a + k) (rgb_g a + k) (rgb_b a + k).
(* rgb.rs 409-426 *)
Definition s_sub_rgb (k : T) (a : rgbf T) : rgbf T :=
  Rgb (k - rgb_r a) (k - rgb_g a) (k - rgb_b a).
(* rgb.rs 429-446 *)
Definition s_div_rgb (k : T) (a : rgbf T) : rgbf T :=
  Rgb (k / rgb_r a) (k / rgb_g a) (k / rgb_b a).
(* rgb.rs 175-201 *)
Definition rgb_sum (l : list (rgbf T)) : rgbf T :=
  fold_left rgb_add l (rgb_from_scalar (rlitd 0.0)).
(* rgb.rs 449-454 *)
Definition hmax (c : rgbf T) : T := rmax (rgb_r c) (rmax (rgb_g c) (rgb_b c)).
(* rgb.rs 458-463 *)
Definition normalize (c : rgbf T) : rgbf T := rgb_div_s c (hmax c).
(* rgb.rs 466-471 *)
Definition clamprgb (c : rgbf T) (a b : T) : rgbf T :=
  Rgb (clamp (rgb_r c) a b) (clamp (rgb_g c) a b) (clamp (rgb_b c) a b).

(* rgb.rs 566-604: one channel; N is 255 or 65535 *)
Definition quantize (N : Z) (x : T) : Z :=
  ras_uint N (rround (clamp x (rlitd 0.0) (rlitd 1.0) * rlitd (inject_Z N))).
Definition rgb_to_uint (N : Z) (c : rgbf T) : rgbu :=
  Rgb (quantize N (rgb_r c)) (quantize N (rgb_g c)) (quantize N (rgb_b c)).
(* rgb.rs 566-574, 586-594 *)
Definition rgb_to_u8 (c : rgbf T) : rgbu := rgb_to_uint 255 c.
(* rgb.rs 576-584, 596-604 *)
Definition rgb_to_u16 (c : rgbf T) : rgbu := rgb_to_uint 65535 c.

(* rgb.rs 606-644: one channel *)
Definition dequantize (N : Z) (k : Z) : T := rof_Z k / rlitd (inject_Z N).
Definition rgb_of_uint (N : Z) (c : rgbu) : rgbf T :=
  Rgb (dequantize N (rgb_r c)) (dequantize N (rgb_g c)) (dequantize N (rgb_b c)).
(* rgb.rs 606-614, 626-634 *)
Definition rgb_of_u8 (c : rgbu) : rgbf T := rgb_of_uint 255 c.
(* rgb.rs 616-624, 636-644 *)
Definition rgb_of_u16 (c : rgbu) : rgbf T := rgb_of_uint 65535 c.

(* ---- xyz.rs ---- *)
(* xyz.rs 35-37 *)
Definition xyz_from_scalar (a : T) : xyz T := Xyz a a a.
(* derived PartialEq, xyz.rs 17 *)
Definition xyz_eqb (a b : xyz T) : bool :=
  (xyz_x a =? xyz_x b) && (xyz_y a =? xyz_y b) && (xyz_z a =? xyz_z b).
(* xyz.rs 214-240 (Add and AddAssign) *)
Definition xyz_add (a b : xyz T) : xyz T :=
  Xyz (xyz_x a + xyz_x b) (xyz_y a + xyz_y b) (xyz_z a + xyz_z b).
(* xyz.rs 243-256 *)
Definition xyz_sub (a b : xyz T) : xyz T :=
  Xyz (xyz_x a - xyz_x b) (xyz_y a - xyz_y b) (xyz_z a - xyz_z b).
(* xyz.rs 259-272 *)
Definition xyz_mul (a b : xyz T) : xyz T :=
  Xyz (xyz_x a * xyz_x b) (xyz_y a * xyz_y b) (xyz_z a * xyz_z b).
(* xyz.rs 275-288 *)
Definition xyz_div (a b : xyz T) : xyz T :=
  Xyz (xyz_x a / xyz_x b) (xyz_y a / xyz_y b) (xyz_z a / xyz_z b).
(* xyz.rs 291-304 *)
Definition xyz_neg (a : xyz T) : xyz T := Xyz (- xyz_x a) (- xyz_y a) (- xyz_z a).
(* xyz.rs 307-320 *)
Definition xyz_mul_s (a : xyz T) (k : T) : xyz T :=
  Xyz (xyz_x a * k) (xyz_y a * k) (xyz_z a * k).
(* xyz.rs 323-336 *)
Definition xyz_div_s (a : xyz T) (k : T) : xyz T :=
  Xyz (xyz_x a / k) (xyz_y a / k) (xyz_z a / k).
(* xyz.rs 339-352 *)
Definition xyz_add_s (a : xyz T) (k : T) : xyz T :=
  Xyz (xyz_x a + k) (xyz_y a + k) (xyz_z a + k).
(* xyz.rs 355-368 *)
Definition xyz_sub_s (a : xyz T) (k : T) : xyz T :=
  Xyz (xyz_x a - k) (xyz_y a - k) (xyz_z a - k).
(* xyz.rs 40-42 *)
Definition xyz_normalized (a : xyz T) : xyz T := xyz_div a (xyz_from_scalar (xyz_y a)).
(* xyz.rs 44-50 *)
Definition xyz_abs (a : xyz T) : xyz T :=
  Xyz (rabs (xyz_x a)) (rabs (xyz_y a)) (rabs (xyz_z a)).
(* xyz.rs 66-72 *)
Definition xyz_from_chromaticity (c : xyy T) : xyz T :=
  xyz_mul_s
    (Xyz (xyy_x c * xyy_Y c / xyy_y c)
         (xyy_Y c)
         ((rone - xyy_x c - xyy_y c) * xyy_Y c / xyy_y c))
    (rlit 100.0).
(* xyz.rs 74-76 *)
Definition xyz_from_xy (x y : T) : xyz T := xyz_from_chromaticity (Xyy x y rone).
(* xyz.rs 78-80 *)
Definition xyz_normalized_y (a : xyz T) : xyz T :=
  xyz_mul_s (xyz_div_s a (xyz_y a)) (rlit 100.0).
(* xyz.rs 96-112 *)
Definition xyz_zero : xyz T := xyz_from_scalar rzero.
Definition xyz_one : xyz T := xyz_from_scalar rone.
Definition xyz_is_zero (c : xyz T) : bool :=
  (xyz_x c =? rzero) && (xyz_y c =? rzero) && (xyz_z c =? rzero).
(* xyz.rs 199-211 *)
Definition xyz_sum (l : list (xyz T)) : xyz T :=
  fold_left xyz_add l (xyz_from_scalar (rlitd 0.0)).

(* ---- chromaticity.rs ---- *)
(* chromaticity.rs 23-28 *)
Definition xy (x y : T) : xyy T := Xyy x y rone.
(* chromaticity.rs 41-48 *)
Definition xyy_from_xyz (c : xyz T) : xyy T :=
  let c := xyz_div_s c (rlit 100.0) in
  Xyy (xyz_x c / (xyz_x c + xyz_y c + xyz_z c))
      (xyz_y c / (xyz_x c + xyz_y c + xyz_z c))
      (xyz_y c).

(* ---- math.rs, matrix times colour ---- *)
(* math.rs 500-513 *)
Definition mat_mul_xyz (m : mat33 T) (c : xyz T) : xyz T :=
  Xyz (mx0 m * xyz_x c + mx1 m * xyz_y c + mx2 m * xyz_z c)
      (mx3 m * xyz_x c + mx4 m * xyz_y c + mx5 m * xyz_z c)
      (mx6 m * xyz_x c + mx7 m * xyz_y c + mx8 m * xyz_z c).
(* math.rs 515-528 *)
Definition mat_mul_rgb (m : mat33 T) (c : rgbf T) : rgbf T :=
  Rgb (mx0 m * rgb_r c + mx1 m * rgb_g c + mx2 m * rgb_b c)
      (mx3 m * rgb_r c + mx4 m * rgb_g c + mx5 m * rgb_b c)
      (mx6 m * rgb_r c + mx7 m * rgb_g c + mx8 m * rgb_b c).

End Color.

(* rgb.rs 556-564, xyz.rs 189-197: narrowing conversions, [as f32] as a parameter *)
Definition rgb_cast {A B : Type} (f : A -> B) (c : rgbf A) : rgbf B :=
  Rgb (f (rgb_r c)) (f (rgb_g c)) (f (rgb_b c)).
Definition xyz_cast {A B : Type} (f : A -> B) (c : xyz A) : xyz B :=
  Xyz (f (xyz_x c)) (f (xyz_y c)) (f (xyz_z c)).
