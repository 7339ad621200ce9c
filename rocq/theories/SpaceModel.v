(* Model of /repo/src/color_space_rgb.rs *)
From Coq Require Import List ZArith QArith.
From Verif Require Import Outcome RealOps MathModel ColorModel.
Open Scope num_scope.

Section Space.
Context {T : Type} {O : RealOps T}.

(* ---- mod encode ---- *)
(* color_space_rgb.rs 21-30 *)
Definition enc_srgb_t (x : T) : T :=
  if x <=? rlit 0.0031308 then x * rlit 12.92
  else (rlit 1.0 + rlit 0.055) * rpowf x (rlit 1.0 / rlit 2.4) - rlit 0.055.
(* color_space_rgb.rs 46-56 *)
Definition enc_bt709_t (x : T) : T :=
  if x <=? rlit 0.018 then x * rlit 4.5
  else rlit 1.099 * rpowf x (rlit 0.45) - rlit 0.099.
(* color_space_rgb.rs 72-83 *)
Definition enc_bt2020_t (x : T) : T :=
  let alpha := rlit 1.099 in
  let beta := rlit 0.018 in
  if x <? beta then x * rlit 4.5
  else alpha * rpowf x (rlit 0.45) - (alpha - rlit 1.0).
(* color_space_rgb.rs 98-103 *)
Definition enc_linear_t (x : T) : T := x.
(* color_space_rgb.rs 119-136 *)
Definition enc_alexa_t (x : T) : T :=
  let cut := rlit 0.010591 in
  let a := rlit 5.555556 in
  let b := rlit 0.052272 in
  let c := rlit 0.247190 in
  let d := rlit 0.385537 in
  let e := rlit 5.367655 in
  let f := rlit 0.092809 in
  if x >? cut then c * rlog10 (a * x + b) + d else e * x + f.

(* ---- mod decode ---- *)
(* color_space_rgb.rs 159-168 *)
Definition dec_srgb_t (f : T) : T :=
  if f <=? rlit 0.040449936 then f / rlit 12.92
  else rpowf ((f + rlit 0.055) / rlit 1.055) (rlit 2.4).
(* color_space_rgb.rs 184-193 *)
Definition dec_bt709_t (f : T) : T :=
  if f <=? rlit 0.018 * rlit 4.5 then f / rlit 4.5
  else rpowf ((f + rlit 0.099) / rlit 1.099) (rlit 1.0 / rlit 0.45).
(* color_space_rgb.rs 209-220 *)
Definition dec_bt2020_t (f : T) : T :=
  let alpha := rlit 1.099 in
  let beta := rlit 0.018 in
  if f <? beta * rlit 4.5 then f / rlit 4.5
  else rpowf ((f + (alpha - rlit 1.0)) / alpha) (rlit 1.0 / rlit 0.45).
(* color_space_rgb.rs 235-240 *)
Definition dec_linear_t (x : T) : T := x.
(* color_space_rgb.rs 256-273 *)
Definition dec_alexa_t (t : T) : T :=
  let a := rlit 5.555556 in
  let b := rlit 0.052272 in
  let c := rlit 0.247190 in
  let d := rlit 0.385537 in
  let e := rlit 5.367655 in
  let f := rlit 0.092809 in
  let ecf := rlit 0.149658 in
  if t >? ecf then (rpowf (rlit 10.0) ((t - d) / c) - b) / a else (t - f) / e.

(* Channelwise lifting, as in encode::srgb (33-42), bt709 (59-68), bt2020 (86-95),
   linear (106-115), alexa_logc_v3 (139-148) and their decode counterparts
   (171-180, 196-205, 223-232, 243-252, 276-285). *)
Definition per_channel (f : T -> T) (c : rgbf T) : rgbf T :=
  Rgb (f (rgb_r c)) (f (rgb_g c)) (f (rgb_b c)).

Definition enc_srgb := per_channel enc_srgb_t.
Definition enc_bt709 := per_channel enc_bt709_t.
Definition enc_bt2020 := per_channel enc_bt2020_t.
Definition enc_linear := per_channel enc_linear_t.
Definition enc_alexa := per_channel enc_alexa_t.
Definition dec_srgb := per_channel dec_srgb_t.
Definition dec_bt709 := per_channel dec_bt709_t.
Definition dec_bt2020 := per_channel dec_bt2020_t.
Definition dec_linear := per_channel dec_linear_t.
Definition dec_alexa := per_channel dec_alexa_t.

(* color_space_rgb.rs 291-303 *)
Record color_space : Type := ColorSpace {
  xf_xyz_to_rgb : mat33 T;
  xf_rgb_to_xyz : mat33 T;
  cs_red : xyy T;
  cs_green : xyy T;
  cs_blue : xyy T;
  cs_white : xyy T;
  cs_oetf : rgbf T -> rgbf T;
  cs_eotf : rgbf T -> rgbf T
}.

(* color_space_rgb.rs 420-457 *)
Definition build_xyz_to_rgb_matrix (red green blue white : xyy T) : mat33 T :=
  let xr := xyy_x red in
  let yr := xyy_y red in
  let zr := rlit 1.0 - (xr + yr) in
  let xg := xyy_x green in
  let yg := xyy_y green in
  let zg := rlit 1.0 - (xg + yg) in
  let xb := xyy_x blue in
  let yb := xyy_y blue in
  let zb := rlit 1.0 - (xb + yb) in
  let xw := xyy_x white in
  let yw := xyy_y white in
  let zw := rlit 1.0 - (xw + yw) in
  let rx := (yg * zb) - (yb * zg) in
  let ry := (xb * zg) - (xg * zb) in
  let rz := (xg * yb) - (xb * yg) in
  let gx := (yb * zr) - (yr * zb) in
  let gy := (xr * zb) - (xb * zr) in
  let gz := (xb * yr) - (xr * yb) in
  let bx := (yr * zg) - (yg * zr) in
  let by_ := (xg * zr) - (xr * zg) in
  let bz := (xr * yg) - (xg * yr) in
  let rw := ((rx * xw) + (ry * yw) + (rz * zw)) / yw in
  let gw := ((gx * xw) + (gy * yw) + (gz * zw)) / yw in
  let bw := ((bx * xw) + (by_ * yw) + (bz * zw)) / yw in
  Mat33 (rx / rw) (ry / rw) (rz / rw)
        (gx / gw) (gy / gw) (gz / gw)
        (bx / bw) (by_ / bw) (bz / bw).

(* color_space_rgb.rs 326-347; the unwrap on line 335 may panic *)
Definition cs_new (red green blue white : xyy T) (oetf eotf : rgbf T -> rgbf T)
  : outcome color_space :=
  let m := build_xyz_to_rgb_matrix red green blue white in
  let! inv := unwrap (mat_inverse m) in
  Ret (ColorSpace m inv red green blue white oetf eotf).

(* color_space_rgb.rs 378-398 *)
Definition cs_new_with_specified_matrices (red green blue white : xyy T)
    (xyz_to_rgb rgb_to_xyz : mat33 T) (oetf eotf : rgbf T -> rgbf T) : color_space :=
  ColorSpace xyz_to_rgb rgb_to_xyz red green blue white oetf eotf.

(* color_space_rgb.rs 405-407 and 414-416 *)
Definition cs_encode (s : color_space) (c : rgbf T) : rgbf T := cs_oetf s c.
Definition cs_decode (s : color_space) (c : rgbf T) : rgbf T := cs_eotf s c.

(* ---- mod model_f64 (459-676) and mod model_f32 (678-873): the same numbers in both ---- *)

Definition lxy (x y : Q) : xyy T := Xyy (rlitd x) (rlitd y) (rlitd 1.0).
(* a nonnegative literal, and a negated one *)
Notation L q := (rlitd q).
Notation N q := (rneg (rlitd q)).

(* 466-489, 685-704 *)
Definition SRGB : color_space :=
  cs_new_with_specified_matrices
    (lxy 0.64 0.33) (lxy 0.30 0.60) (lxy 0.15 0.06) (lxy 0.3127 0.3290)
    (Mat33 (L 3.2406) (N 1.5372) (N 0.4986)
           (N 0.9689) (L 1.8758) (L 0.0415)
           (L 0.0557) (N 0.2040) (L 1.0570))
    (Mat33 (L 0.4124) (L 0.3576) (L 0.1805)
           (L 0.2126) (L 0.7152) (L 0.0722)
           (L 0.0193) (L 0.1192) (L 0.9505))
    enc_srgb dec_srgb.
(* 493-506 (f64 only) *)
Definition SRGB_DRV : outcome color_space :=
  cs_new (lxy 0.64 0.33) (lxy 0.30 0.60) (lxy 0.15 0.06) (lxy 0.3127 0.3290)
         enc_srgb dec_srgb.
(* 510-523, 708-721 *)
Definition ITUR_BT709 : outcome color_space :=
  cs_new (lxy 0.64 0.33) (lxy 0.30 0.60) (lxy 0.15 0.06) (lxy 0.3127 0.3290)
         enc_bt709 dec_bt709.
(* 528-541, 725-738 *)
Definition ITUR_BT2020 : outcome color_space :=
  cs_new (lxy 0.708 0.292) (lxy 0.17 0.797) (lxy 0.131 0.046) (lxy 0.3127 0.3290)
         enc_bt2020 dec_bt2020.
(* 545-558, 742-755 *)
Definition pow_curve (x : T) (c : rgbf T) : rgbf T := rgb_powf c x.
Definition DCI_P3 : outcome color_space :=
  cs_new (lxy 0.680 0.320) (lxy 0.265 0.690) (lxy 0.150 0.060) (lxy 0.314 0.351)
         (pow_curve (L 1.0 / L 2.6)) (pow_curve (L 2.6)).
(* 562-575, 759-772 *)
Definition DCI_P3_D65 : outcome color_space :=
  cs_new (lxy 0.680 0.320) (lxy 0.265 0.690) (lxy 0.150 0.060) (lxy 0.3127 0.3290)
         (pow_curve (L 1.0 / L 2.6)) (pow_curve (L 2.6)).
(* 579-602, 776-799 *)
Definition ACES : color_space :=
  cs_new_with_specified_matrices
    (lxy 0.7347 0.2653) (lxy 0.0000 1.0000)
    (Xyy (L 0.0001) (N 0.077) (L 1.0)) (lxy 0.32168 0.33767)
    (Mat33 (L 1.0498110175) (L 0.0000000000) (N 0.0000974845)
           (N 0.4959030231) (L 1.3733130458) (L 0.0982400361)
           (L 0.0000000000) (L 0.0000000000) (L 0.9912520182))
    (Mat33 (L 0.9525523959) (L 0.0000000000) (L 0.0000936786)
           (L 0.3439664498) (L 0.7281660966) (N 0.0721325464)
           (L 0.0000000000) (L 0.0000000000) (L 1.0088251844))
    enc_linear dec_linear.
(* 606-619, 803-816 *)
Definition ACES_CG : outcome color_space :=
  cs_new (lxy 0.713 0.293) (lxy 0.165 0.830) (lxy 0.128 0.044) (lxy 0.32168 0.33767)
         enc_linear dec_linear.
(* 624-647, 820-843 *)
Definition ADOBE_RGB_1998 : color_space :=
  cs_new_with_specified_matrices
    (lxy 0.6400 0.3300) (lxy 0.2100 0.7100) (lxy 0.1500 0.0600) (lxy 0.3127 0.3290)
    (Mat33 (L 2.04159) (N 0.56501) (N 0.34473)
           (N 0.96924) (L 1.87597) (L 0.04156)
           (L 0.01344) (N 0.11836) (L 1.01517))
    (Mat33 (L 0.57667) (L 0.18556) (L 0.18823)
           (L 0.29734) (L 0.62736) (L 0.07529)
           (L 0.02703) (L 0.07069) (L 0.99134))
    (pow_curve (L 1.0 / L 2.19921875)) (pow_curve (L 2.19921875)).
(* 651-674, 847-870 *)
Definition ALEXA_WIDE_GAMUT : color_space :=
  cs_new_with_specified_matrices
    (lxy 0.6840 0.3130) (lxy 0.2210 0.8480)
    (Xyy (L 0.0861) (N 0.102) (L 1.0)) (lxy 0.3127 0.3290)
    (Mat33 (L 1.789066) (N 0.482534) (N 0.200076)
           (N 0.639849) (L 1.396400) (L 0.194432)
           (N 0.041532) (L 0.082335) (L 0.878868))
    (Mat33 (L 0.638008) (L 0.214704) (L 0.097744)
           (L 0.291954) (L 0.823841) (N 0.115795)
           (L 0.002798) (N 0.067034) (L 1.153294))
    enc_alexa dec_alexa.

End Space.

Arguments color_space T : clear implicits.
